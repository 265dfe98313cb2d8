(** C162: ignition of several tubes. *)
From Coq Require Import List Reals Arith Lia Lra.
From Verif Require Import IgniteModel TubeIgniteModel TubeIgniteSpec TubeIgniteProofs.
Import ListNotations.
Local Open Scope R_scope.

(** Each tube is ignited as if it were alone. For all options of the tubes, all histories of calls on any levels and all tubes that change in any way between the calls:
    no call fails, tube [k] is ignited in exactly those calls in which a single ignition with the options of tube [k] ignites it, when called on the levels of this tube only. *)
Theorem C162_alone : forall n max_levels opts calls, (n <= length opts)%nat -> (forall tubes level, In (tubes, level) calls -> (n <= length tubes)%nat) ->
  exists sources ss outs, MakeEach n max_levels opts = Some sources /\ History sources calls = Some (ss, outs) /\ length outs = length calls /\
    forall k o, (k < n)%nat -> nth_error opts k = Some o ->
      own_ignitions k calls outs = fst (run_calls o (initial_times max_levels) (own_calls k calls)) /\
      nth_error ss k = Some (o, snd (run_calls o (initial_times max_levels) (own_calls k calls))).
Proof.
  intros n max_levels opts calls N C. exists (map (fun o => (o, initial_times max_levels)) (firstn n opts)).
  destruct (history_alone calls (map (fun o => (o, initial_times max_levels)) (firstn n opts))) as (ss & outs & H & L1 & L2 & P).
  { intros tubes level I. rewrite map_length, firstn_length. specialize (C tubes level I). lia. }
  exists ss, outs. split; [unfold MakeEach; destruct (Nat.ltb_spec (length opts) n); [lia|reflexivity]|]. split; [exact H|]. split; [exact L2|].
  intros k o K O. destruct (P k o (initial_times max_levels)) as [A B]; [|split; assumption].
  rewrite nth_error_map, nth_firstn, O by exact K. reflexivity.
Qed.
Print Assumptions C162_alone.

(** The same with one set of options: the tubes do not share their time points. *)
Theorem C162_same : forall n max_levels o calls, (forall tubes level, In (tubes, level) calls -> (n <= length tubes)%nat) ->
  exists ss outs, History (MakeSame n max_levels o) calls = Some (ss, outs) /\ length outs = length calls /\
    forall k, (k < n)%nat ->
      own_ignitions k calls outs = fst (run_calls o (initial_times max_levels) (own_calls k calls)) /\
      nth_error ss k = Some (o, snd (run_calls o (initial_times max_levels) (own_calls k calls))).
Proof.
  intros n max_levels o calls C. destruct (history_alone calls (MakeSame n max_levels o)) as (ss & outs & H & L1 & L2 & P).
  { intros tubes level I. unfold MakeSame. rewrite repeat_length. exact (C tubes level I). }
  exists ss, outs. split; [exact H|]. split; [exact L2|]. intros k K. destruct (P k o (initial_times max_levels)) as [A B]; [|split; assumption].
  unfold MakeSame. rewrite nth_repeat_lt by exact K. reflexivity.
Qed.
Print Assumptions C162_same.

(** One call: tubes without this level are left alone, as are tubes without an ignition. *)
Theorem C162_others : forall sources tubes level, (length sources <= length tubes)%nat ->
  exists ss ts, AdvanceLevel sources tubes level = Some (ss, ts, None) /\ length ts = length tubes /\
    (forall k t, nth_error tubes k = Some t -> (levels t <= level)%nat -> nth_error ts k = Some t /\ nth_error ss k = nth_error sources k) /\
    (forall k, (length sources <= k)%nat -> nth_error ts k = nth_error tubes k).
Proof.
  intros sources tubes level L. destruct (advance_level sources tubes level L) as (ss & ts & E & L1 & L2 & P & U). exists ss, ts.
  split; [exact E|]. split; [exact L2|]. split; [|exact U]. intros k t T Q. destruct (nth_error sources k) as [s|] eqn:N.
  - destruct (P k s t N T) as [A B]. rewrite A, B. destruct (Nat.ltb_spec level (levels t)); [lia|]. split; reflexivity.
  - apply nth_error_None in N. split; [rewrite U by exact N; exact T|]. apply nth_error_None. lia.
Qed.
Print Assumptions C162_others.

(** A source that can fail, of any kind: the first error is returned. Tubes in front are advanced, those behind are not touched. *)
Theorem C162_failure : forall (A T : Type) number_of_levels (adv : A -> T -> nat -> A * T * option R) s1 s s2 t1 t t2 s' t' e level, length s1 = length t1 ->
  (forall k a b, nth_error s1 k = Some a -> nth_error t1 k = Some b -> (level < number_of_levels b)%nat -> snd (adv a b level) = None) ->
  (level < number_of_levels t)%nat -> adv s t level = (s', t', Some e) ->
  exists u1 v1, AdvanceTubes number_of_levels adv (s1 ++ s :: s2) (t1 ++ t :: t2) level = Some (u1 ++ s' :: s2, v1 ++ t' :: t2, Some e) /\
    length u1 = length s1 /\ length v1 = length t1 /\
    forall k a b, nth_error s1 k = Some a -> nth_error t1 k = Some b ->
      ((level < number_of_levels b)%nat -> exists u v, adv a b level = (u, v, None) /\ nth_error u1 k = Some u /\ nth_error v1 k = Some v) /\
      ((number_of_levels b <= level)%nat -> nth_error u1 k = Some a /\ nth_error v1 k = Some b).
Proof.
  intros A T number_of_levels adv s1 s s2. induction s1 as [|a s1 IH]; intros [|b t1] t t2 s' t' e level L F Q E; try discriminate L.
  - exists [], []. cbn [app AdvanceTubes]. apply Nat.ltb_lt in Q. rewrite Q, E. split; [reflexivity|]. split; [reflexivity|]. split; [reflexivity|]. intros [|k] a b H; discriminate H.
  - injection L as L. destruct (IH t1 t t2 s' t' e level L (fun k => F (S k)) Q E) as (u1 & v1 & R & L1 & L2 & P).
    specialize (F 0%nat a b eq_refl eq_refl). cbn [app AdvanceTubes]. destruct (Nat.ltb_spec level (number_of_levels b)) as [B|B].
    + specialize (F B). destruct (adv a b level) as [[u v] r] eqn:D. cbn [snd] in F. subst r. exists (u :: u1), (v :: v1). rewrite R.
      split; [reflexivity|]. split; [cbn [length]; lia|]. split; [cbn [length]; lia|]. intros [|k] x y X Y; cbn [nth_error] in X, Y |- *; [|now apply P].
      injection X as <-. injection Y as <-. split; [intros _; exists u, v; auto|lia].
    + exists (a :: u1), (b :: v1). rewrite R. split; [reflexivity|]. split; [cbn [length]; lia|]. split; [cbn [length]; lia|].
      intros [|k] x y X Y; cbn [nth_error] in X, Y |- *; [|now apply P]. injection X as <-. injection Y as <-. split; [lia|auto].
Qed.
Print Assumptions C162_failure.

(** A run that is continued from a saved state goes on as a run without a break: for every history before and after the restart, the object made from the same options
    and loaded from the archive gives the tubes and sources of the whole history. *)
Theorem C162_restart : forall n max_levels opts fresh calls later ss outs, MakeEach n max_levels opts = Some fresh -> History fresh calls = Some (ss, outs) ->
  exists loaded, Load fresh (Save ss) = Some loaded /\
    History fresh (calls ++ later) = match History loaded later with Some (end_, more) => Some (end_, outs ++ more) | None => None end.
Proof.
  intros n max_levels opts fresh calls later ss outs _ H. exists ss. split; [|now apply history_app]. apply load_save. symmetry. eapply history_options. exact H.
Qed.
Print Assumptions C162_restart.

(** Two tubes with the same options: the first one has two levels and the second one has one. A call on level 1 concerns the first tube only, the second call on level 0 finds fuel in the second tube only. *)
Definition example_tube (n : nat) (time fuel : R) : tube := {| levels := n; current := fun _ => time; ratio := fun _ => fuel; ignited := false |}.
Definition example_calls : list (list tube * nat) :=
  [([example_tube 2 (11 / 100) 1; example_tube 1 (11 / 100) 1], 1%nat); ([example_tube 2 (11 / 100) 0; example_tube 1 (11 / 100) 1], 0%nat)].
Definition example_opts : ignite_options := mkIgniteOptions 1 (95 / 100) 300 2000 (5 / 100) (1 / 2) (1 / 10) (1 / 50).

Lemma small_times : dbl_min < 1 / 10.
Proof.
  change dbl_min with (/ 2 ^ Pos.to_nat 1022). replace (Pos.to_nat 1022) with (4 + Pos.to_nat 1018)%nat by lia. rewrite pow_add.
  assert (1 <= 2 ^ Pos.to_nat 1018) by (apply pow_R1_Rle; lra).
  apply Rle_lt_trans with (/ 16); [|lra]. apply Rinv_le_contravar; lra.
Qed.

Example C162_example :
  (forall tubes level, In (tubes, level) example_calls -> (2 <= length tubes)%nat) /\
  own_calls 0 example_calls = [(1%nat, 11 / 100, 1); (0%nat, 11 / 100, 0)] /\ own_calls 1 example_calls = [(0%nat, 11 / 100, 1)] /\
  exists ss outs, History (MakeSame 2 2 example_opts) example_calls = Some (ss, outs) /\ own_ignitions 0 example_calls outs = [true; false] /\ own_ignitions 1 example_calls outs = [true].
Proof.
  assert (H : forall tubes level, In (tubes, level) example_calls -> (2 <= length tubes)%nat).
  { intros tubes level [E|[E|[]]]; injection E as <- _; cbn; lia. }
  split; [exact H|]. split; [reflexivity|]. split; [reflexivity|].
  destruct (C162_same 2 2 example_opts example_calls H) as (ss & outs & E & _ & P). exists ss, outs. split; [exact E|].
  rewrite (proj1 (P 0%nat ltac:(lia))), (proj1 (P 1%nat ltac:(lia))).
  change (own_calls 0 example_calls) with [(1%nat, 11 / 100, 1); (0%nat, 11 / 100, 0)]. change (own_calls 1 example_calls) with [(0%nat, 11 / 100, 1)].
  pose proof small_times. unfold run_calls, initial_times, repeat, advance, GetNextIgnitionTimePoint, example_opts. cbn [nth offset ignite_interval equivalence_ratio_criterium].
  repeat (match goal with |- context [Rlt_dec ?a ?b] =>
            lazymatch a with context [Rlt_dec _ _] => fail | _ => destruct (Rlt_dec a b); try (exfalso; lra) end
          end; cbn [SetLastIgnitionTimePoint nth]).
  split; reflexivity.
Qed.

(** A source that counts its calls and fails in the second of three tubes *)
Example C162_failure_example :
  let adv := fun (a : nat) (b : nat) (_ : nat) => (S a, b, if (b =? 7)%nat then Some (1 / 2) else None) in
  AdvanceTubes (fun _ => 3%nat) adv [0; 0; 0]%nat [5; 7; 9]%nat 1 = Some ([1; 1; 0]%nat, [5; 7; 9]%nat, Some (1 / 2)).
Proof. reflexivity. Qed.

(** A restart between the two calls above *)
Example C162_restart_example : exists fresh ss outs,
  MakeEach 2 2 [example_opts; example_opts] = Some fresh /\ History fresh (firstn 1 example_calls) = Some (ss, outs) /\ length (Save ss) = 2%nat.
Proof.
  destruct (C162_same 2 2 example_opts (firstn 1 example_calls)) as (ss & outs & E & _ & P).
  { intros tubes level [I|[]]. injection I as <- _. cbn. lia. }
  exists (MakeSame 2 2 example_opts), ss, outs. split; [reflexivity|]. split; [exact E|].
  destruct (P 1%nat ltac:(lia)) as [_ B]. unfold Save. rewrite map_length.
  assert (L : length ss = length (MakeSame 2 2 example_opts)). { pose proof (f_equal (@length _) (history_options _ _ _ _ E)) as G. rewrite !map_length in G. exact G. } exact L.
Qed.
