(** C159: program options. *)
From Coq Require Import String List ZArith Bool Arith Lia.
From Verif Require Import OptionsModel OptionsSpec OptionsProofs.
Import ListNotations.
Local Open Scope Z_scope.

(** A global variable of the script is an option with its value unless its name is reserved; for all other names the default is used. The same holds for the
    entries of a dictionary. [cast] is the conversion of Python objects. *)
Theorem C159_options : forall (obj T : Type) (cast : obj -> option T) (dict : list (string * obj)) name value, unique_names dict ->
  (forall v, gives dict name v -> ~ reserved name -> GetOptionOr cast (ParseGlobals dict) name value = cast v) /\
  (silent dict name \/ reserved name -> GetOptionOr cast (ParseGlobals dict) name value = Some value) /\
  (forall v, gives dict name v -> GetOptionOr cast (ToMap dict) name value = cast v) /\
  (silent dict name -> GetOptionOr cast (ToMap dict) name value = Some value).
Proof.
  intros obj T cast d name value U. unfold GetOptionOr. rewrite Parse_filter, ToMap_id by exact U. split; [|split; [|split]].
  - intros v G N. rewrite (find_in _ name v); [reflexivity|now apply filter_unique|]. apply filter_In. split; [exact G|]. cbn [fst]. rewrite sub_prefix. unfold reserved in N. destruct (prefix "__" name); [congruence|reflexivity].
  - intros H. rewrite find_out; [reflexivity|]. intros v I. apply filter_In in I. destruct I as [I K]. cbn [fst] in K. rewrite sub_prefix in K. destruct H as [H|H]; [now apply (H v)|]. unfold reserved in H. rewrite H in K. discriminate.
  - intros v G. now rewrite (find_in _ name v U G).
  - intros H. now rewrite find_out.
Qed.
Print Assumptions C159_options.

(** A box keeps the default of each bound which is not given and takes the first [dim] of the three numbers of each bound that is given. *)
Theorem C159_box : forall (obj T : Type) (zero : T) dim (cast_dict : obj -> option (list (string * obj))) (cast_list : obj -> option (list T)) map name box dict lo hi,
  (dim <= 3)%nat -> length lo = dim -> length hi = dim -> unique_names map -> unique_names dict -> gives map name box -> cast_dict box = Some dict ->
  (silent dict "lower" -> silent dict "upper" -> GetBox zero dim cast_dict cast_list map name (lo, hi) = Some (lo, hi)) /\
  (forall l x, gives dict "lower" l -> cast_list l = Some x -> length x = 3%nat -> silent dict "upper" -> GetBox zero dim cast_dict cast_list map name (lo, hi) = Some (firstn dim x, hi)) /\
  (forall u y, silent dict "lower" -> gives dict "upper" u -> cast_list u = Some y -> length y = 3%nat -> GetBox zero dim cast_dict cast_list map name (lo, hi) = Some (lo, firstn dim y)) /\
  (forall l x u y, gives dict "lower" l -> cast_list l = Some x -> length x = 3%nat -> gives dict "upper" u -> cast_list u = Some y -> length y = 3%nat ->
     GetBox zero dim cast_dict cast_list map name (lo, hi) = Some (firstn dim x, firstn dim y)).
Proof.
  intros obj T zero dim cd cl map name box dict lo hi Hd Hl Hh U1 U2 G C. assert (O : GetOptions cd map name = Some dict) by (unfold GetOptions, GetOptionOr; rewrite (find_in _ _ _ U1 G); cbn [snd]; now rewrite C, ToMap_id).
  unfold GetBox. rewrite O. cbn [fst snd]. clear O.
  assert (D : forall s v, length v = dim -> silent dict s -> GetVector zero dim cl dict s v = Some v).
  { intros s v L S. unfold GetVector, GetOptionOr. rewrite find_out by exact S. f_equal. rewrite (firstn_all2 v) by lia. rewrite firstn_app, L, Nat.sub_diag, firstn_all2 by lia. now rewrite app_nil_r. }
  assert (V : forall s v o x, gives dict s o -> cl o = Some x -> length x = 3%nat -> GetVector zero dim cl dict s v = Some (firstn dim x)).
  { intros s v o x I E L. unfold GetVector, GetOptionOr. rewrite (find_in _ _ _ U2 I). cbn [snd]. unfold cast3. rewrite E, L. reflexivity. }
  split; [intros S1 S2; now rewrite (D "lower"%string), (D "upper"%string)|]. split; [intros l x I E L S2; now rewrite (V "lower"%string lo l x), (D "upper"%string)|].
  split; [intros u y S1 I E L; now rewrite (D "lower"%string), (V "upper"%string hi u y)|]. intros l x u y I E L I' E' L'. now rewrite (V "lower"%string lo l x), (V "upper"%string hi u y).
Qed.
Print Assumptions C159_box.

(** Not so: a vector with one number for each axis is accepted. In one and two dimensions it always throws. *)
Theorem C159_vector_refuted : forall (obj T : Type) (zero : T) dim (cast_list : obj -> option (list T)) map name o x value, (dim < 3)%nat -> unique_names map -> gives map name o ->
  cast_list o = Some x -> length x = dim -> GetVector zero dim cast_list map name value = None.
Proof.
  intros obj T zero dim cl map name o x value Hd U G C L. unfold GetVector, GetOptionOr. rewrite (find_in _ _ _ U G). cbn [snd]. unfold cast3. rewrite C. destruct (Nat.eqb_spec (length x) 3); [lia|reflexivity].
Qed.
Print Assumptions C159_vector_refuted.

(** Not so: a direction which is none of the axes is rejected. Every number is taken. *)
Theorem C159_direction_refuted : forall (obj : Type) (cast_int : obj -> option Z) map name o n value, unique_names map -> gives map name o -> cast_int o = Some n ->
  GetDirection cast_int map name value = Some n.
Proof. intros obj ci map name o n value U G C. unfold GetDirection, GetOptionOr. rewrite (find_in _ _ _ U G). exact C. Qed.
Print Assumptions C159_direction_refuted.

(** Full claim: all processes get the contents of the script as process 0 sees it, or all of them report an error. The first case, for files below 2 GiB
    which all processes find: after two messages every process has the contents, whatever the others see of the file. *)
Theorem C159_script_partial : forall n (files : nat -> option (list Z)) content, files 0%nat = Some content -> Z.of_nat (length content) < 2 ^ 31 ->
  forall steps, (2 <= steps)%nat -> run steps (map (fun rank => ReadScript rank true (files rank)) (seq 0 (S n))) = repeat (Ret content) (S n).
Proof.
  intros n files content H0 Hs steps Hst. destruct steps as [|[|steps]]; [lia|lia|].
  assert (T : to_int (Z.of_nat (length content)) = Z.of_nat (length content)) by (apply to_int_small; lia).
  set (size := Z.of_nat (length content)) in *.
  set (second := fun rank : nat => Bcast (if (rank =? 0)%nat then match files rank with Some c => firstn (Z.to_nat size) c | None => repeat 0 (Z.to_nat size) end else repeat 0 (Z.to_nat size)) (fun buffer => Ret buffer)).
  assert (W1 : forall rank, waits (ReadScript rank true (files rank)) = true).
  { intros [|rank]; unfold ReadScript, ReadAndBroadcastFile; cbn [negb Nat.eqb]; [now rewrite H0|reflexivity]. }
  assert (R1 : forall rank, resume [size] (ReadScript rank true (files rank)) = second rank).
  { intros rank. unfold ReadScript, ReadAndBroadcastFile, second. cbn [negb]. destruct rank as [|rank]; cbn [Nat.eqb]; [rewrite H0|]; cbn [resume hd]; destruct (Z.ltb_spec size 0); try (unfold size in *; lia); reflexivity. }
  assert (F : forall (f : nat -> prog) l, (forall r, waits (f r) = true) -> forallb waits (map f l) = true).
  { intros f l Hf. induction l as [|r l IH]; [reflexivity|]. cbn. now rewrite Hf, IH. }
  cbn [run]. rewrite F by exact W1. rewrite map_map.
  assert (D1 : data_of (hd Throw (map (fun rank => ReadScript rank true (files rank)) (seq 0 (S n)))) = [size]).
  { cbn [seq map hd]. unfold ReadScript, ReadAndBroadcastFile. cbn [negb Nat.eqb]. rewrite H0. cbn [data_of]. fold size. now rewrite T. }
  rewrite D1. rewrite (map_ext _ second) by exact R1. rewrite F by reflexivity. rewrite map_map.
  assert (D2 : data_of (hd Throw (map second (seq 0 (S n)))) = content).
  { cbn [seq map hd data_of second Nat.eqb]. rewrite H0. unfold size. rewrite Nat2Z.id. apply firstn_all. }
  rewrite D2. assert (E : map (fun rank => resume content (second rank)) (seq 0 (S n)) = repeat (Ret content) (S n)).
  { unfold second. cbn [resume]. clear. generalize 0%nat. induction n as [|n IH]; intros m; [reflexivity|]. cbn [seq map repeat]. f_equal. exact (IH (S m)). }
  rewrite E. apply run_stuck. reflexivity.
Qed.
Print Assumptions C159_script_partial.

(** The second case fails: if process 0 cannot open the file, or some process does not find it while others do, those others never return. *)
Theorem C159_script_refuted : forall n (regular : nat -> bool) (files : nat -> option (list Z)) bad, (bad <= n)%nat ->
  (regular bad = false \/ bad = 0%nat /\ files 0%nat = None) ->
  forall rank, (1 <= rank <= n)%nat -> regular rank = true -> forall steps, exists p,
    nth_error (run steps (map (fun rank => ReadScript rank (regular rank) (files rank)) (seq 0 (S n)))) rank = Some p /\ waits p = true.
Proof.
  intros n regular files bad Hb H rank Hr Rr steps.
  assert (NB : waits (ReadScript bad (regular bad) (files bad)) = false).
  { unfold ReadScript. destruct H as [-> |[-> H]]; [reflexivity|]. destruct (regular 0%nat); [|reflexivity]. cbn [negb]. unfold ReadAndBroadcastFile. cbn [Nat.eqb]. now rewrite H. }
  rewrite run_stuck.
  - exists (ReadScript rank (regular rank) (files rank)). split.
    + apply (map_nth_error (fun rank => ReadScript rank (regular rank) (files rank))). rewrite nth_error_nth' with (d := 0%nat) by (rewrite seq_length; lia). now rewrite seq_nth by lia.
    + rewrite Rr. unfold ReadScript, ReadAndBroadcastFile. cbn [negb]. destruct (Nat.eqb_spec rank 0); [lia|reflexivity].
  - apply not_true_iff_false. intros A. rewrite forallb_forall in A. rewrite A in NB; [discriminate|]. apply (in_map (fun rank => ReadScript rank (regular rank) (files rank))). apply in_seq. lia.
Qed.
Print Assumptions C159_script_refuted.

(** Objects of Python as lists of numbers; the options of a script, and three processes of which only the first one sees the file. *)
Definition globals_ex : list (string * list Z) := [("__name__", [1]); ("dir", [7]); ("cells", [8; 4; 2])]%string.
Example C159_example :
  unique_names globals_ex /\ gives globals_ex "cells" [8; 4; 2] /\ ~ reserved "cells" /\ reserved "__name__" /\ silent globals_ex "x" /\
  GetVector 0 2 Some (ParseGlobals globals_ex) "cells" [1; 1] = Some [8; 4] /\ GetVector 0 2 Some (ParseGlobals globals_ex) "dir" [1; 1] = None /\
  run 2 (map (fun rank => ReadScript rank true (if (rank =? 0)%nat then Some [10; 20] else None)) (seq 0 3)) = repeat (Ret [10; 20]) 3.
Proof.
  split; [unfold unique_names; cbn; repeat constructor; cbn; intuition congruence|]. split; [cbn; auto|]. split; [unfold reserved; cbn; congruence|]. split; [reflexivity|].
  split; [intros v; cbn; intuition congruence|]. repeat split.
Qed.
