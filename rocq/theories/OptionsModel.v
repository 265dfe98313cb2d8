(** Model of the program options, src/ext/ProgramOptions.cpp, include/fub/ext/ProgramOptions.hpp and src/AMReX/ViewFArrayBox.cpp, and of reading files on all
    processes, src/ext/Mpi.cpp. Exceptions are None. *)
From Coq Require Import String List ZArith Bool Arith.
Import ListNotations.
Local Open Scope Z_scope.

(** std::map<std::string, pybind11::object> (ProgramOptions.hpp:42); [obj] stands for the objects of Python. The order of the keys does not matter here. *)
Definition options (obj : Type) := list (string * obj).
(** std::map::emplace: an existing entry is kept *)
Definition emplace {obj} (m : options obj) (k : string) (v : obj) : options obj := if existsb (fun e => String.eqb (fst e) k) m then m else m ++ [(k, v)].
(** ToMap, ProgramOptions.cpp:75-82 *)
Definition ToMap {obj} (dict : list (string * obj)) : options obj := fold_left (fun m kv => emplace m (fst kv) (snd kv)) dict [].
(** ParsePythonScript, lines 66-72: the options are made of the global variables after the script ran *)
Definition ParseGlobals {obj} (globals : list (string * obj)) : options obj :=
  fold_left (fun m kv => if negb (String.eqb (substring 0 2 (fst kv)) "__") then emplace m (fst kv) (snd kv) else m) globals [].
(** GetOptionOr, ProgramOptions.hpp:49-57; [cast] is pybind11's conversion, which may throw *)
Definition GetOptionOr {obj T} (cast : obj -> option T) (map : options obj) (name : string) (value : T) : option T :=
  match find (fun e => String.eqb (fst e) name) map with Some e => cast (snd e) | None => Some value end.
(** GetOptions, ProgramOptions.cpp:131-134 *)
Definition GetOptions {obj} (cast_dict : obj -> option (list (string * obj))) (map : options obj) (name : string) : option (options obj) :=
  match GetOptionOr cast_dict map name [] with Some d => Some (ToMap d) | None => None end.
(** GetOptionOr for Direction, ProgramOptions.cpp:35-40: an enumeration with the values 0, 1, 2 is made of any int *)
Definition GetDirection {obj} (cast_int : obj -> option Z) (map : options obj) (name : string) (value : Z) : option Z := GetOptionOr cast_int map name value.
(** pybind11's conversion to std::array<T, 3>: sequences of other lengths throw (used in ViewFArrayBox.cpp:29, 50 and 51) *)
Definition cast3 {obj T} (cast_list : obj -> option (list T)) (o : obj) : option (list T) :=
  match cast_list o with Some l => if (length l =? 3)%nat then Some l else None | None => None end.
(** GetOptionOr for IntVect, ViewFArrayBox.cpp:24-31, and for each bound of a RealBox, lines 46-51; [zero] fills the unused entries *)
Definition GetVector {obj T} (zero : T) (dim : nat) (cast_list : obj -> option (list T)) (map : options obj) (name : string) (value : list T) : option (list T) :=
  let iv := firstn dim value ++ repeat zero (3 - dim) in
  match GetOptionOr (cast3 cast_list) map name iv with Some iv => Some (firstn dim iv) | None => None end.
(** GetOptionOr for Box and RealBox, lines 33-53 *)
Definition GetBox {obj T} (zero : T) (dim : nat) (cast_dict : obj -> option (list (string * obj))) (cast_list : obj -> option (list T)) (map : options obj) (name : string)
  (value : list T * list T) : option (list T * list T) :=
  match GetOptions cast_dict map name with
  | None => None
  | Some box =>
      match GetVector zero dim cast_list box "lower" (fst value) with
      | None => None
      | Some lo => match GetVector zero dim cast_list box "upper" (snd value) with None => None | Some hi => Some (lo, hi) end
      end
  end.

(** The programs of the processes: a result, an exception or failed assertion, or a call of MPI_Bcast with own data and root 0 *)
Inductive prog := Ret (content : list Z) | Throw | Bcast (data : list Z) (next : list Z -> prog).
(** static_cast<int> of a file size, Mpi.cpp:41 *)
Definition to_int (n : Z) : Z := (n + 2 ^ 31) mod 2 ^ 32 - 2 ^ 31.
(** ReadAndBroadcastFile, Mpi.cpp:29-53; [file] is what the process sees of the file: None if it cannot be opened *)
Definition ReadAndBroadcastFile (rank : nat) (file : option (list Z)) : prog :=
  let broadcast (size : Z) :=
    Bcast [size] (fun msg =>
      let size := hd 0 msg in
      if size <? 0 then Throw
      else
        let buffer := if (rank =? 0)%nat then match file with Some c => firstn (Z.to_nat size) c | None => repeat 0 (Z.to_nat size) end else repeat 0 (Z.to_nat size) in
        Bcast buffer (fun buffer => Ret buffer)) in
  if (rank =? 0)%nat then match file with None => Throw | Some c => broadcast (to_int (Z.of_nat (length c))) end
  else broadcast (-1).
(** ParsePythonScript, ProgramOptions.cpp:52-56: each process checks the path *)
Definition ReadScript (rank : nat) (regular : bool) (file : option (list Z)) : prog := if negb regular then Throw else ReadAndBroadcastFile rank file.

(** MPI_Bcast: when all processes have called it each one gets the data of process 0; until then it waits *)
Definition data_of (p : prog) : list Z := match p with Bcast d _ => d | _ => [] end.
(** A process is in MPI_Bcast (src/ext/Mpi.cpp:43, 51) *)
Definition waits (p : prog) : bool := match p with Bcast _ _ => true | _ => false end.
(** A process goes on with the message of MPI_Bcast (src/ext/Mpi.cpp:43, 51) *)
Definition resume (msg : list Z) (p : prog) : prog := match p with Bcast _ k => k msg | p => p end.
(** All processes together, for a number of calls of MPI_Bcast (src/ext/Mpi.cpp:43, 51) *)
Fixpoint run (steps : nat) (ps : list prog) : list prog :=
  match steps with O => ps | S n => if forallb waits ps then run n (map (resume (data_of (hd Throw ps))) ps) else ps end.
