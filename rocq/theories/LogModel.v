(** src/ext/Log.cpp: log files, filters and the format of log records. *)
From Coq Require Import List Arith Bool.
Import ListNotations.

(** std::string: its bytes *)
Definition bytes := list nat.
Definition newline : nat := 10.

(** operator< of std::string: lexicographic *)
Fixpoint str_less (a b : bytes) : bool :=
  match a, b with
  | _, [] => false
  | [], _ :: _ => true
  | x :: a', y :: b' => if x <? y then true else if y <? x then false else str_less a' b'
  end.
Definition str_eqb (a b : bytes) : bool := if list_eq_dec Nat.eq_dec a b then true else false.

(** boost::replace_all(message, "\n", replace_by), Log.cpp:79 *)
Definition replace_newlines (message replace_by : bytes) : bytes := flat_map (fun c => if c =? newline then replace_by else [c]) message.
(** FormatLogs_, Log.cpp:53-82; the prefix (time stamp, channel, severity, time, level; lines 57-74) is a parameter *)
Definition FormatLogs (prefix message : bytes) : bytes :=
  let replace_by := newline :: prefix in
  if 1 <? length message then prefix ++ replace_newlines message replace_by else [].

(** std::lower_bound on [first, first + len), called in Log.cpp:159-160: halving as in the standard libraries; [fuel] bounds the number of turns *)
Fixpoint lower_bound_loop (fuel : nat) (v : list bytes) (x : bytes) (first len : nat) : nat :=
  match fuel with
  | O => first
  | S fuel =>
      if len =? 0 then first
      else
        let half := Nat.div2 len in
        let middle := first + half in
        if str_less (nth middle v []) x then lower_bound_loop fuel v x (middle + 1) (len - half - 1)
        else lower_bound_loop fuel v x first half
  end.
Definition lower_bound (v : list bytes) (x : bytes) : nat := lower_bound_loop (length v) v x 0 (length v).

(** The attributes of a record that the filters use: "Channel" and "Severity" (boost::log::trivial: trace 0, debug 1, info 2, ...) *)
Record record := mkRecord { r_channel : option bytes; r_severity : nat }.
(** The filter of the file, Log.cpp:148-162, for a sorted black list *)
Definition file_filter (blacklist : list bytes) (r : record) : bool :=
  match r_channel r with
  | None => true
  | Some channel =>
      let entry := lower_bound blacklist channel in
      (entry =? length blacklist) || negb (str_eqb (nth entry blacklist []) channel)
  end.
(** The filter of the console, Log.cpp:168-169 *)
Definition console_filter (r : record) : bool := 2 <=? r_severity r.

(** Files and other nodes (directories, ...) of the file system *)
Inductive node := Regular (content : bytes) | Other.
Definition file_system := bytes -> option node.
Definition update (fs : file_system) (name : bytes) (n : option node) : file_system := fun k => if str_eqb k name then n else fs k.
(** boost::filesystem::rename of an existing node *)
Definition rename (fs : file_system) (from to : bytes) : file_system := update (update fs to (fs from)) from None.
(** The loops of Log.cpp:107-116 and 121-131: the first name "{}.{}" that is not in use, for i = 1, 2, ... ([turns] many); [dec] formats numbers *)
Fixpoint free_name (dec : nat -> bytes) (fs : file_system) (name : bytes) (i turns : nat) : option bytes :=
  match turns with
  | O => None
  | S turns =>
      let new_name := name ++ 46 :: dec i in
      match fs new_name with None => Some new_name | Some _ => free_name dec fs name (S i) turns end
  end.
(** The part for rank 0, Log.cpp:93-133 without creating directories: the file system and the name of the log file *)
Definition prepare (dec : nat -> bytes) (turns rank : nat) (fs : file_system) (log_filename : bytes) : file_system * bytes :=
  if rank =? 0 then
    match fs log_filename with
    | Some (Regular _) => match free_name dec fs log_filename 1 turns with Some new_name => (rename fs log_filename new_name, log_filename) | None => (fs, log_filename) end
    | Some Other => match free_name dec fs log_filename 1 turns with Some new_name => (fs, new_name) | None => (fs, log_filename) end
    | None => (fs, log_filename)
    end
  else (fs, log_filename).
(** std::ofstream(name): an existing file is truncated; other nodes cannot be opened *)
Definition open_file (fs : file_system) (name : bytes) : file_system * option bytes :=
  match fs name with Some Other => (fs, None) | _ => (update fs name (Some (Regular [])), Some name) end.
(** Where records go: nowhere, or to the console and to a file if it could be opened; the filter is a black list *)
Inductive sinks := Nothing | FileAndConsole (file : option bytes) (blacklist : list bytes).
(** InitializeLogging, Log.cpp:85-174; [sort] is std::sort *)
Definition InitializeLogging (dec : nat -> bytes) (turns : nat) (sort : list bytes -> list bytes) (which_mpi_ranks_do_log : list nat)
    (channel_blacklist : list bytes) (log_name : nat -> bytes) (rank : nat) (fs : file_system) : file_system * sinks :=
  let (fs1, log_filename) := prepare dec turns rank fs (log_name rank) in
  if existsb (Nat.eqb rank) which_mpi_ranks_do_log then
    let (fs2, file) := open_file fs1 log_filename in (fs2, FileAndConsole file (sort channel_blacklist))
  else (fs1, Nothing).
