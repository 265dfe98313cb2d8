(** C155: logging. *)
From Coq Require Import List Arith Bool Lia Permutation.
From Verif Require Import LogModel LogSpec LogProofs.
Import ListNotations.

(** Exactly the given ranks log. A record is written to the file exactly if its channel is not in the given black list, in whatever order the list is given. *)
Theorem C155_filter : forall dec turns sort ranks blacklist log_name rank fs, sorts sort ->
  (In rank ranks <-> exists file bl, snd (InitializeLogging dec turns sort ranks blacklist log_name rank fs) = FileAndConsole file bl) /\
  (forall file bl, snd (InitializeLogging dec turns sort ranks blacklist log_name rank fs) = FileAndConsole file bl ->
     forall r, file_filter bl r = true <-> (forall c, r_channel r = Some c -> ~ In c blacklist)).
Proof.
  intros dec turns sort ranks blacklist log_name rank fs HS. unfold InitializeLogging.
  destruct (prepare dec turns rank fs (log_name rank)) as [fs1 f]. destruct (existsb (Nat.eqb rank) ranks) eqn:E.
  - destruct (open_file fs1 f) as [fs2 file]. cbn [snd]. split.
    + apply existsb_exists in E. destruct E as (q & Hq & Eq). apply Nat.eqb_eq in Eq. subst q. split; [eauto|intros _; exact Hq].
    + intros file' bl [= <- <-] r. destruct (HS blacklist) as [Pm Sd]. rewrite (filter_iff (sort blacklist) r Sd).
      split; intros H c Hc Hi; apply (H c Hc); [now apply (Permutation_in c Pm)|now apply (Permutation_in c (Permutation_sym Pm))].
  - cbn [snd]. split; [|discriminate]. split; [|intros (? & ? & ?); discriminate]. intros Hi. exfalso.
    assert (existsb (Nat.eqb rank) ranks = true) by (apply existsb_exists; exists rank; split; [exact Hi|apply Nat.eqb_refl]). congruence.
Qed.
Print Assumptions C155_filter.

(** Full claim: every message is written, each of its lines behind the prefix. It is for messages of at least two characters. *)
Theorem C155_format_partial : forall prefix message : bytes, 2 <= length message -> ~ In newline prefix ->
  lines (FormatLogs prefix message) = map (app prefix) (lines message).
Proof. intros prefix message L N. unfold FormatLogs. destruct (Nat.ltb_spec 1 (length message)); [|lia]. now apply format_lines. Qed.
Print Assumptions C155_format_partial.
(** A message of one character is lost. *)
Theorem C155_format_refuted : forall (prefix : bytes) (c : nat), c <> newline -> FormatLogs prefix [c] = [] /\ lines (FormatLogs prefix [c]) <> map (app prefix) (lines [c]).
Proof.
  intros prefix c N. split; [reflexivity|]. cbn [FormatLogs length Nat.ltb Nat.leb lines]. destruct (Nat.eq_dec c newline); [contradiction|].
  cbn. intros E. injection E as E. destruct prefix; discriminate.
Qed.
Print Assumptions C155_format_refuted.

(** Full claim: an old log file is kept. On rank 0 it is, under the first free number; nothing else changes but the new log file, which is empty. *)
Theorem C155_old_partial : forall dec turns sort ranks blacklist log_name (fs : file_system) (old : bytes),
  In 0 ranks -> fs (log_name 0) = Some (Regular old) -> (exists k, 1 <= k <= turns /\ fs (numbered dec (log_name 0) k) = None) ->
  exists k, 1 <= k <= turns /\ fs (numbered dec (log_name 0) k) = None /\ (forall q, 1 <= q < k -> fs (numbered dec (log_name 0) q) <> None) /\
    let (fs', s) := InitializeLogging dec turns sort ranks blacklist log_name 0 fs in
    s = FileAndConsole (Some (log_name 0)) (sort blacklist) /\ fs' (log_name 0) = Some (Regular []) /\ fs' (numbered dec (log_name 0) k) = Some (Regular old) /\
    forall n, n <> log_name 0 -> n <> numbered dec (log_name 0) k -> fs' n = fs n.
Proof.
  intros dec turns sort ranks blacklist log_name fs old Hi Ho (k0 & B0 & E0).
  destruct (free_spec dec fs (log_name 0) turns 1) as (k & B & E & M & R); [exists k0; split; [lia|exact E0]|].
  exists k. split; [lia|]. split; [exact E|]. split; [exact M|]. unfold InitializeLogging, prepare. rewrite Nat.eqb_refl, Ho, R.
  assert (X : existsb (Nat.eqb 0) ranks = true) by (apply existsb_exists; exists 0; split; [exact Hi|reflexivity]). rewrite X.
  pose proof (numbered_neq dec (log_name 0) k) as Nq. unfold open_file, rename. rewrite update_same. split; [reflexivity|]. split; [apply update_same|]. split.
  - rewrite !update_other by exact Nq. now rewrite update_same, Ho.
  - intros n N1 N2. now rewrite !update_other.
Qed.
Print Assumptions C155_old_partial.
(** On all other ranks the old log file is emptied, and no other file changes. *)
Theorem C155_old_refuted : forall dec turns sort ranks blacklist log_name rank (fs : file_system) (old : bytes),
  rank <> 0 -> In rank ranks -> fs (log_name rank) = Some (Regular old) ->
  let (fs', s) := InitializeLogging dec turns sort ranks blacklist log_name rank fs in
  fs' (log_name rank) = Some (Regular []) /\ forall n, n <> log_name rank -> fs' n = fs n.
Proof.
  intros dec turns sort ranks blacklist log_name rank fs old Nr Hi Ho. unfold InitializeLogging, prepare. destruct (Nat.eqb_spec rank 0); [contradiction|].
  assert (X : existsb (Nat.eqb rank) ranks = true) by (apply existsb_exists; exists rank; split; [exact Hi|apply Nat.eqb_refl]). rewrite X.
  unfold open_file. rewrite Ho. split; [apply update_same|]. intros k N. now apply update_other.
Qed.
Print Assumptions C155_old_refuted.
(** If the name is in use by something else than a file, rank 0 logs to the first free number and leaves everything else alone. *)
Theorem C155_directory : forall dec turns sort ranks blacklist log_name (fs : file_system),
  In 0 ranks -> fs (log_name 0) = Some Other -> (exists k, 1 <= k <= turns /\ fs (numbered dec (log_name 0) k) = None) ->
  exists k, 1 <= k <= turns /\ fs (numbered dec (log_name 0) k) = None /\
    let (fs', s) := InitializeLogging dec turns sort ranks blacklist log_name 0 fs in
    s = FileAndConsole (Some (numbered dec (log_name 0) k)) (sort blacklist) /\ fs' (numbered dec (log_name 0) k) = Some (Regular []) /\
    forall n, n <> numbered dec (log_name 0) k -> fs' n = fs n.
Proof.
  intros dec turns sort ranks blacklist log_name fs Hi Ho (k0 & B0 & E0).
  destruct (free_spec dec fs (log_name 0) turns 1) as (k & B & E & M & R); [exists k0; split; [lia|exact E0]|].
  exists k. split; [lia|]. split; [exact E|]. unfold InitializeLogging, prepare. rewrite Nat.eqb_refl, Ho, R.
  assert (X : existsb (Nat.eqb 0) ranks = true) by (apply existsb_exists; exists 0; split; [exact Hi|reflexivity]). rewrite X.
  unfold open_file. rewrite E. split; [reflexivity|]. split; [apply update_same|]. intros n N. now apply update_other.
Qed.
Print Assumptions C155_directory.

(** Insertion sort is a sort in the sense of the specification; a file "l" and an old file "l.1" exist; the black list is not sorted. *)
Fixpoint insert (x : bytes) (l : list bytes) : list bytes := match l with [] => [x] | y :: l' => if str_less y x then y :: insert x l' else x :: l end.
Definition isort (l : list bytes) : list bytes := fold_right insert [] l.
Lemma insert_perm x l : Permutation (x :: l) (insert x l).
Proof. induction l as [|y l IH]; cbn; [reflexivity|]. destruct (str_less y x); [|reflexivity]. rewrite perm_swap. now constructor. Qed.
Definition ordered (l : list bytes) : Prop := forall i j, i < j < length l -> str_less (nth j l []) (nth i l []) = false.
Lemma ordered_cons x l : ordered (x :: l) <-> (forall y, In y l -> str_less y x = false) /\ ordered l.
Proof.
  split.
  - intros H. split.
    + intros y Hy. destruct (In_nth l y [] Hy) as (k & Hk & <-). apply (H 0 (S k)). cbn. lia.
    + intros i j B. apply (H (S i) (S j)). cbn. lia.
  - intros [H1 H2] [|i] [|j] B; cbn in B; try lia; [cbn; apply H1, nth_In; lia|cbn; apply H2; lia].
Qed.
Lemma insert_ordered x l : ordered l -> ordered (insert x l).
Proof.
  induction l as [|y l IH]; intros H; cbn [insert].
  - apply ordered_cons. split; [intros z []|exact H].
  - apply ordered_cons in H. destruct H as [H1 H2]. destruct (str_less y x) eqn:E.
    + apply ordered_cons. split; [|now apply IH]. intros z Hz. apply (Permutation_in z (Permutation_sym (insert_perm x l))) in Hz. destruct Hz as [<-|Hz]; [|now apply H1].
      destruct (str_less x y) eqn:F; [|reflexivity]. pose proof (less_trans _ _ _ E F) as Q. rewrite less_irrefl in Q. discriminate.
    + apply ordered_cons. split; [|apply ordered_cons; now split]. intros z [<-|Hz]; [exact E|]. specialize (H1 z Hz).
      destruct (str_less z x) eqn:F; [|reflexivity]. destruct (str_less x y) eqn:G.
      * pose proof (less_trans _ _ _ F G). congruence.
      * assert (x = y) as -> by now apply less_total. congruence.
Qed.
Lemma isort_sorts : sorts isort.
Proof.
  intros l. split.
  - induction l as [|x l IH]; [reflexivity|]. cbn. rewrite <- insert_perm. now constructor.
  - change (ordered (isort l)). induction l as [|x l IH]; [intros i j B; cbn in B; lia|]. now apply insert_ordered.
Qed.
Example C155_example :
  let fs := fun n => if str_eqb n [108] then Some (Regular [1; 2]) else if str_eqb n [108; 46; 49] then Some (Regular [3]) else None in
  let dec := fun i => [48 + i] in
  let '(fs', s) := InitializeLogging dec 9 isort [0; 2] [[98]; [97; 97]; [97]] (fun _ => [108]) 0 fs in
  fs' [108] = Some (Regular []) /\ fs' [108; 46; 49] = Some (Regular [3]) /\ fs' [108; 46; 50] = Some (Regular [1; 2]) /\
  s = FileAndConsole (Some [108]) [[97]; [97; 97]; [98]] /\ file_filter [[97]; [97; 97]; [98]] (mkRecord (Some [97; 97]) 3) = false /\
  file_filter [[97]; [97; 97]; [98]] (mkRecord (Some [97; 98]) 0) = true /\ FormatLogs [62] [65; 10; 66] = [62; 65; 10; 62; 66].
Proof. repeat split. Qed.
