(** Properties C09-C11: output scheduling. *)
From Coq Require Import Reals List ZArith Lia Lra.
From Verif Require Import OutputModel OutputSpec OutputProofs OutputExamples.
Import ListNotations.
Local Open Scope R_scope.

(** C09: the next output time lies in the future, at most one interval ahead, does not jump over any
    multiple of any interval, and is (up to the tolerance) such a multiple. *)
Theorem C09_next_output_time : forall (dbl_max : R) (o : OutputAt) (t : R),
  0 <= t < dbl_max -> 0 <= out_eps o ->
  let next := next_output_time_at dbl_max o t in
  t < next /\
  (forall I, In I (intervals o) -> 0 < I -> next <= t + I + out_eps o) /\
  (forall I k, In I (intervals o) -> 0 < I -> t < IZR k * I -> next <= IZR k * I + out_eps o) /\
  (next = dbl_max \/
   exists I k, In I (intervals o) /\ 0 < I /\ t < IZR k * I /\ next = IZR k * I + out_eps o).
Proof. exact C09_lemma. Qed.
Print Assumptions C09_next_output_time.

(** Output is wanted exactly at multiples of a frequency, at time zero, and within two tolerances
    after a multiple of an interval. *)
Theorem C09_shall_output_now : forall (o : OutputAt) (cycle : Z) (t : R),
  0 <= t -> (forall f, In f (frequencies o) -> f <> 0%Z) ->
  (forall I, In I (intervals o) -> 0 < I /\ 2 * out_eps o <= I) ->
  exists b, shall_output_at o cycle t = Some b /\
  (b = true <->
    (exists f, In f (frequencies o) /\ (f | cycle)%Z) \/ t = 0 \/
    (exists I k, In I (intervals o) /\ IZR k * I <= t < IZR k * I + 2 * out_eps o)).
Proof. exact C09_shall_lemma. Qed.
Print Assumptions C09_shall_output_now.

(** A run which stops at the announced time finds output wanted there. *)
Theorem C09_due_at_next : forall (dbl_max : R) (o : OutputAt) (cycle : Z) (t : R),
  0 <= t < dbl_max -> 0 < out_eps o ->
  (forall f, In f (frequencies o) -> f <> 0%Z) ->
  (forall I, In I (intervals o) -> 0 < I /\ 2 * out_eps o <= I) ->
  next_output_time_at dbl_max o t <> dbl_max ->
  shall_output_at o cycle (next_output_time_at dbl_max o t) = Some true.
Proof. exact C09_due_at_next_lemma. Qed.
Print Assumptions C09_due_at_next.

(** A frequency of zero is an undefined modulo operation. *)
Theorem C09_zero_frequency_undefined : forall (o : OutputAt) (cycle : Z) (t : R) rest,
  frequencies o = 0%Z :: rest -> shall_output_at o cycle t = None.
Proof. exact C09_zero_frequency_lemma. Qed.
Print Assumptions C09_zero_frequency_undefined.

Example C09_example : (0 <= 1 < 1000 /\ 0 < out_eps ex_at /\
  (forall f, In f (frequencies ex_at) -> f <> 0%Z) /\
  (forall I, In I (intervals ex_at) -> 0 < I /\ 2 * out_eps ex_at <= I)) /\
  next_output_time_at 1000 ex_at 1 = 2 + 1/100.
Proof. exact (conj ex_at_hyps ex_next). Qed.

Example C09_zero_example : frequencies (mkOutputAt [0%Z; 3%Z] [] 0) = 0%Z :: [3%Z].
Proof. reflexivity. Qed.

(** C10 *)
Theorem C10_next_is_minimum :
  forall (G W : Type) (dbl_max : R) (ms : list (option (Member G W))) (t : R),
  let next := multi_next dbl_max ms t in
  next <= dbl_max /\
  (forall m, In (Some m) ms -> next <= m_next m t) /\
  (next = dbl_max \/ exists m, In (Some m) ms /\ next = m_next m t).
Proof. exact C10_next_lemma. Qed.
Print Assumptions C10_next_is_minimum.

Theorem C10_shall_iff_some_member : forall (G W : Type) (ms : list (option (Member G W))) (g : G),
  multi_shall ms g = true <-> exists m, In (Some m) ms /\ m_shall m g = true.
Proof. exact C10_shall_lemma. Qed.
Print Assumptions C10_shall_iff_some_member.

Theorem C10_invokes_due_members_in_order :
  forall (G W : Type) (ms : list (option (Member G W))) (g : G) (w : W),
  multi_act ms g w = act_all (due_members ms g) g w.
Proof. exact C10_act_lemma. Qed.
Print Assumptions C10_invokes_due_members_in_order.

Example C10_example : multi_act ex_members tt [] = [1; 3]%nat /\ multi_shall ex_members tt = true.
Proof. exact (conj eq_refl eq_refl). Qed.

(** C11: after any history of registrations. *)
Theorem C11_first_registration_wins :
  forall (Name Maker : Type) (eqb : Name -> Name -> bool),
  (forall a b, eqb a b = true <-> a = b) ->
  forall (history : list (Name * Maker)),
  let '(f, flags) := register_all eqb [] history in
  (forall n, make_output eqb f n = first_registered eqb history n) /\
  (forall n, factory_contains eqb f n = true <-> exists m, In (n, m) history) /\
  (forall i k v, nth_error history i = Some (k, v) ->
     exists b, nth_error flags i = Some b /\
     (b = true <-> forall j v', (j < i)%nat -> nth_error history j <> Some (k, v'))).
Proof. exact @C11_lemma. Qed.
Print Assumptions C11_first_registration_wins.

Example C11_example : (forall a b, Nat.eqb a b = true <-> a = b) /\
  snd (register_all Nat.eqb [] [(1, 10); (2, 20); (1, 30)]%nat) = [true; true; false] /\
  make_output Nat.eqb (fst (register_all Nat.eqb [] [(1, 10); (2, 20); (1, 30)]%nat)) 1%nat = Some 10%nat.
Proof. exact (conj Nat.eqb_eq (conj eq_refl eq_refl)). Qed.
