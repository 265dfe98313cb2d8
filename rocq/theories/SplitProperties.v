(** Properties C01-C04, C56: operator splitting. *)
From Coq Require Import Reals List Arith Lia Lra Permutation.
From Verif Require Import SplitModel SplitSpec SplitProofs SplitExamples.
Import ListNotations.
Local Open Scope R_scope.

(** C01: an error-free split step spends exactly [dt] in every operator, calls no other operator,
    uses only pieces between 0 and [dt], calls the operators for the first time in the given order,
    and symmetric methods have palindromic call sequences. *)
Theorem C01_split_time : forall (m : method) (W : Type) (fs : list (op W)) dt w log w',
  advance m (logged_from 0 fs) dt ([], w) = ((log, w'), None) ->
  (forall i, (i < length fs)%nat -> time_in i log = dt) /\
  (forall c, In c log -> (who c < length fs)%nat) /\
  (0 <= dt -> forall c, In c log -> 0 <= how_long c <= dt) /\
  (is_symmetric m = true -> rev (plan log) = plan log) /\
  firstn (length fs) (map who log) = seq 0 (length fs).
Proof. exact C01_lemma. Qed.
Print Assumptions C01_split_time.

(** Instance: lumped Strang splitting with three counting operators, dt = 4. *)
Example C01_example :
  advance StrangLumped (logged_from 0 [count_op; count_op; count_op]) 4 ([], 0%nat)
  = (([mkCall 0 (/2*4) None; mkCall 1 (/2*4) None; mkCall 2 4 None; mkCall 1 (/2*4) None;
       mkCall 0 (/2*4) None], 5%nat), None).
Proof. exact C01_example_lemma. Qed.

(** C02: for every method and number of operators there is one fixed call sequence [full]; a run
    either performs all of it without any failure, or stops directly after the first failing call
    and returns that call's error.  The state afterwards is the result of exactly the observed calls. *)
Theorem C02_first_failure_stops : forall (m : method) (n : nat) (dt : R), exists full : list (nat * R),
  forall (W : Type) (fs : list (op W)) (w : W), length fs = n ->
  forall log w' r,
  advance m (logged_from 0 fs) dt ([], w) = ((log, w'), r) ->
  w' = replay fs (plan log) w /\
  match r with
  | None => plan log = full /\ (forall c, In c log -> outcome c = None)
  | Some e => exists before last rest,
      log = before ++ [last] /\ outcome last = Some e /\
      (forall c, In c before -> outcome c = None) /\
      full = plan log ++ rest
  end.
Proof. exact C02_lemma. Qed.
Print Assumptions C02_first_failure_stops.

(** Observing the calls does not change the effect of the split step. *)
Theorem C02_observation_is_transparent :
  forall (m : method) (W : Type) (fs : list (op W)) dt w log w' r,
  advance m (logged_from 0 fs) dt ([], w) = ((log, w'), r) ->
  advance m fs dt w = (w', r).
Proof. exact C02_transparent_lemma. Qed.
Print Assumptions C02_observation_is_transparent.

(** Instance: the second call fails, the remaining two calls of Strang splitting do not happen. *)
Example C02_example :
  advance Strang (logged_from 0 [count_op; fail_op]) 2 ([], 0%nat)
  = (([mkCall 0 (/2*2) None; mkCall 1 (/2*2) (Some (mkTooLarge (/8) 1))], 11%nat),
     Some (mkTooLarge (/8) 1)).
Proof. exact C02_example_lemma. Qed.

(** C03: symmetric methods are time reversible for exact flows. *)
Theorem C03_time_reversible : forall (m : method) (W : Type) (phis : list (R -> W -> W)) dt w,
  is_symmetric m = true ->
  (forall phi, In phi phis -> is_flow phi) ->
  advance m (map flow_op phis) (- dt) (fst (advance m (map flow_op phis) dt w)) = (w, None).
Proof. exact C03_lemma. Qed.
Print Assumptions C03_time_reversible.

(** Every method is exact for commuting flows. *)
Theorem C03_commuting_exact : forall (m : method) (W : Type) (phis : list (R -> W -> W)) dt w,
  (forall phi, In phi phis -> is_flow phi) ->
  (forall phi psi, In phi phis -> In psi phis -> forall a b w, phi a (psi b w) = psi b (phi a w)) ->
  advance m (map flow_op phis) dt w = (compose_all phis dt w, None).
Proof. exact C03_commuting_lemma. Qed.
Print Assumptions C03_commuting_exact.

(** Godunov splitting composes the full flows in the given order. *)
Theorem C03_godunov_order : forall (W : Type) (phis : list (R -> W -> W)) dt w,
  advance Godunov (map flow_op phis) dt w = (compose_all phis dt w, None).
Proof. exact C03_godunov_lemma. Qed.
Print Assumptions C03_godunov_order.

(** Godunov splitting is in general not reversible: two shear flows. *)
Theorem C03_godunov_not_reversible : exists (W : Type) (phis : list (R -> W -> W)) dt w,
  (forall phi, In phi phis -> is_flow phi) /\
  fst (advance Godunov (map flow_op phis) (- dt) (fst (advance Godunov (map flow_op phis) dt w))) <> w.
Proof. exact C03_godunov_not_reversible_lemma. Qed.
Print Assumptions C03_godunov_not_reversible.

(** Instance: the two (non commuting) shear flows and the three translations satisfy the hypotheses. *)
Example C03_example :
  (forall phi, In phi [shear1; shear2] -> is_flow phi) /\
  shear1 1 (shear2 1 (1, 0)) <> shear2 1 (shear1 1 (1, 0)) /\
  (forall phi, In phi [shift 1; shift 2; shift 3] -> is_flow phi) /\
  (forall phi psi, In phi [shift 1; shift 2; shift 3] -> In psi [shift 1; shift 2; shift 3] ->
     forall a b w, phi a (psi b w) = psi b (phi a w)).
Proof. exact C03_example_lemma. Qed.

(** C04: directions form a permutation, and consecutive (sub-)cycles use opposite orders. *)
Theorem C04_split_directions : forall rank cycle sub,
  Permutation (make_split_directions rank cycle sub) (seq 0 rank) /\
  make_split_directions rank (S cycle) sub = rev (make_split_directions rank cycle sub) /\
  make_split_directions rank cycle (S sub) = rev (make_split_directions rank cycle sub) /\
  make_split_directions rank 0 0 = seq 0 rank.
Proof. exact C04_lemma. Qed.
Print Assumptions C04_split_directions.

Example C04_example : make_split_directions 3 5 2 = [2; 1; 0]%nat.
Proof. reflexivity. Qed.

(** C56: a type erased split method makes the same calls as the wrapped method ... *)
Theorem C56_type_erasure_partial : forall (m : method) (W : Type) (fs : list (op W)) dt w,
  length fs <> 3%nat ->
  advance (AnySplit m) fs dt w = advance m fs dt w.
Proof. exact C56_partial_lemma. Qed.
Print Assumptions C56_type_erasure_partial.

(** ... but not for Strang splitting with three operators. *)
Theorem C56_type_erasure_refuted : exists (fs : list (op nat)) dt w,
  fst (fst (advance (AnySplit Strang) (logged_from 0 fs) dt ([], w))) <>
  fst (fst (advance Strang (logged_from 0 fs) dt ([], w))).
Proof. exact C56_refuted_lemma. Qed.
Print Assumptions C56_type_erasure_refuted.

Example C56_example : length [count_op; fail_op] <> 3%nat.
Proof. exact C56_example_lemma. Qed.
