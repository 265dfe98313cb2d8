(** C164: the table with the state of the control unit. *)
From Coq Require Import String List Reals ZArith Lia.
From Verif Require Import TableModel TableSpec TableProofs.
Import ListNotations.
Local Open Scope string_scope.

(** For every file system in which the path or a numbered name is free, and every history of calls: the file of the run has one row, one time and one number of cycles for each call, in the order
    of the calls; the headings are different, and below each heading is the value that it names. *)
Theorem C164_table : forall limit fs path calls, fs path = None \/ has_free_name limit fs path ->
  exists fs' fp t, Run limit fs path calls = (fs', fp) /\ fs' fp = Some (Table t) /\ (fs path <> Some NonFile -> fp = path) /\ NoDup (fields t) /\
    length (data t) = length calls /\ length (times t) = length calls /\ length (cycles t) = length calls /\
    forall k s time cycle, nth_error calls k = Some (s, time, cycle) ->
      nth_error (times t) k = Some time /\ nth_error (cycles t) k = Some cycle /\
      exists row, nth_error (data t) k = Some row /\ length row = length (fields t) /\
        forall name v, means s name v -> exists j, nth_error (fields t) j = Some name /\ nth_error row j = Some v.
Proof.
  intros limit fs path calls H. destruct (construct limit fs path H) as (fs1 & fp & C & T & P & _). unfold Run. rewrite C.
  destruct (outputs calls fs1 fp empty_table T) as [A _]. cbn [fields data times cycles empty_table app] in A.
  eexists; exists fp; eexists; split; [reflexivity|]. split; [exact A|]. split; [exact P|]. cbn [fields data times cycles]. rewrite !map_length.
  split; [|split; [reflexivity|split; [reflexivity|split; [reflexivity|]]]].
  - rewrite headings. repeat constructor; cbn [In]; intros D; repeat (destruct D as [D|D]; [discriminate D|]); exact D.
  - intros k s time cycle K. rewrite !nth_error_map, K. cbn [option_map fst snd]. split; [reflexivity|]. split; [reflexivity|].
    eexists. split; [reflexivity|]. split; [rewrite !map_length; reflexivity|]. intros name v M. now apply column.
Qed.
Print Assumptions C164_table.

(** No file is lost: whatever was in the file system before the run is there after every history of calls, with the same content and not in the file of the run. Only a file at the path
    itself gets another name. So tables of earlier runs survive each restart. *)
Theorem C164_keeps : forall limit fs path calls, fs path = None \/ has_free_name limit fs path ->
  exists fs' fp, Run limit fs path calls = (fs', fp) /\
    forall p e, fs p = Some e -> exists q, fs' q = Some e /\ q <> fp /\ (p <> path \/ e = NonFile -> q = p).
Proof.
  intros limit fs path calls H. destruct (construct limit fs path H) as (fs1 & fp & C & T & _ & K). unfold Run. rewrite C.
  destruct (outputs calls fs1 fp empty_table T) as [_ B]. eexists; exists fp; split; [reflexivity|].
  intros p e P. destruct (K p e P) as (q & Q & N & S1). exists q. rewrite B by exact N. auto.
Qed.
Print Assumptions C164_keeps.

(** Two runs with the same path, the second after a restart: both tables are complete, in different files. *)
Theorem C164_restart : forall limit fs path calls later fs1 fp1 t, fs path = None \/ has_free_name limit fs path -> Run limit fs path calls = (fs1, fp1) -> fs1 fp1 = Some (Table t) ->
  has_free_name limit fs1 path ->
  length (times t) = length calls /\ exists fs2 fp2 q t2, Run limit fs1 path later = (fs2, fp2) /\ fs2 q = Some (Table t) /\ fs2 fp2 = Some (Table t2) /\ q <> fp2 /\ length (times t2) = length later.
Proof.
  intros limit fs path calls later fs1 fp1 t H R T F. destruct (C164_table limit fs path calls H) as (fs' & fp & u & R' & T' & _ & _ & _ & L & _).
  rewrite R in R'. injection R' as <- <-. rewrite T in T'. injection T' as <-. split; [exact L|].
  destruct (C164_keeps limit fs1 path later (or_intror F)) as (fs2 & fp2 & R2 & K). destruct (K fp1 (Table t) T) as (q & Q & N & _).
  destruct (C164_table limit fs1 path later (or_intror F)) as (fs3 & fp3 & t2 & R3 & T3 & _ & _ & _ & L3 & _). rewrite R2 in R3. injection R3 as <- <-.
  exists fs2, fp2, q, t2. auto.
Qed.
Print Assumptions C164_restart.

(** Without a file that could be written a call has no effect. *)
Theorem C164_no_file : forall fs path call, (forall t, fs path <> Some (Table t)) -> forall p, Output fs path call p = fs p.
Proof.
  intros fs path [[s time] cycle] H p. unfold Output, WriteHdf5Database. destruct (fs path) as [[t| |]|]; try reflexivity. exfalso. now apply (H t).
Qed.
Print Assumptions C164_no_file.

(** What is no file is never touched, even if no name is free: for every file system and history. *)
Theorem C164_directory : forall limit fs path calls, fs path = Some NonFile ->
  fst (Run limit fs path calls) path = Some NonFile /\ ((forall i, (1 <= i <= limit)%nat -> fs (numbered path i) <> None) -> forall p, fst (Run limit fs path calls) p = fs p).
Proof.
  intros limit fs path calls D.
  assert (G : FirstFree fs path 1 limit = None -> forall p, fst (Run limit fs path calls) p = fs p).
  { intros F p. unfold Run, Construct. rewrite D, F. unfold CreateHdf5Database. rewrite D. cbn [fst].
    induction calls as [|[[s time] cycle] calls IH]; cbn [fold_left]; [reflexivity|]. unfold Output at 2, WriteHdf5Database. rewrite D. exact IH. }
  split.
  - destruct (FirstFree fs path 1 limit) as [name|] eqn:F; [|rewrite G by reflexivity; exact D].
    pose proof (first_free _ _ _ _ _ F) as N. unfold Run, Construct. rewrite D, F. unfold CreateHdf5Database. rewrite N. cbn [fst].
    destruct (outputs calls (put fs name (Some (Table empty_table))) name empty_table (put_same _ _ _)) as [_ B].
    etransitivity; [apply B; congruence|]. rewrite put_other by congruence. exact D.
  - intros U. apply G. clear G. assert (W : forall steps i, (1 <= i)%nat -> (i + steps <= S limit)%nat -> FirstFree fs path i steps = None).
    { induction steps as [|n IH]; intros i I L; cbn [FirstFree]; [reflexivity|]. destruct (fs (numbered path i)) eqn:E; [apply IH; lia|]. exfalso. apply (U i); [lia|exact E]. }
    apply W; lia.
Qed.
Print Assumptions C164_directory.

(** An old file and one that was renamed before: the old one becomes number 2 *)
Example C164_example :
  let fs := fun p => if String.eqb p "out.h5" then Some (OtherFile 7) else if String.eqb p "out.h5.1" then Some (OtherFile 3) else None in
  let pl := fun x => {| pressure := x; temperature := 2; power := 3; mass_flow_in := 4; mass_flow_out := 5; SEC_Mode := true |} in
  let s := {| current_rpm := 10; compressor := pl 20%R; turbine := pl 30%R; power_out := 40; fuel_consumption := 50; fuel_consumption_rate := 60; efficiency := 70 |} in
  let '(fs', fp) := Run 9 fs "out.h5" [(s, 1%R, 1%Z); (s, 2%R, 5%Z)] in
  has_free_name 9 fs "out.h5" /\ fp = "out.h5" /\ fs' "out.h5.1" = Some (OtherFile 3) /\ fs' "out.h5.2" = Some (OtherFile 7) /\
  (exists t, fs' "out.h5" = Some (Table t) /\ times t = [1; 2]%R /\ cycles t = [1; 5]%Z /\ nth_error (fields t) 4 = Some "compressor_pressure" /\ map (fun row => nth_error row 4) (data t) = [Some 20; Some 20]%R) /\
  means s "compressor_pressure" 20.
Proof.
  cbn zeta. match goal with |- let '(_, _) := ?r in _ => destruct r as [fs' fp] eqn:E end. unfold Run in E. cbn in E. injection E as <- <-.
  split; [exists 2%nat; split; [lia|reflexivity]|]. split; [reflexivity|]. split; [reflexivity|]. split; [reflexivity|]. split; [|apply m_cp].
  eexists. split; [reflexivity|]. repeat split; reflexivity.
Qed.

(** The path is a directory: the table goes to a new file *)
Example C164_directory_example :
  let fs := fun p => if String.eqb p "out" then Some NonFile else None in
  snd (Run 9 fs "out" []) = "out.1" /\ fst (Run 9 fs "out" []) "out" = Some NonFile.
Proof. split; reflexivity. Qed.

(** A path to another file, for the theorem on calls without a table *)
Example C164_no_file_example : let fs := fun p => if String.eqb p "out" then Some (OtherFile 1) else None in forall t, fs "out" <> Some (Table t).
Proof. cbn. intros t. discriminate. Qed.

(** Two runs with the same path: the table of the first run is in a file with number 1 *)
Example C164_restart_example :
  let fs : filesystem := fun _ => None in
  let '(fs1, fp1) := Run 9 fs "out" [] in
  has_free_name 9 fs1 "out" /\ fs1 fp1 = Some (Table empty_table) /\ fst (Run 9 fs1 "out" []) "out.1" = Some (Table empty_table) /\ fst (Run 9 fs1 "out" []) "out" = Some (Table empty_table).
Proof. cbn zeta. cbv beta iota delta [Run Construct fold_left]. split; [exists 1%nat; split; [lia|reflexivity]|]. split; [reflexivity|]. split; reflexivity. Qed.
