(** Concrete solver and output used beside the theorems of RunProperties.v (not code of /repo). *)
From Coq Require Import Reals List ZArith Lia Lra.
From Verif Require Import SplitModel RunModel RunSpec RunProofs.
Import ListNotations.
Local Open Scope R_scope.

(** State: time and cycle. Claims a stable step of 1/2 but every step larger than 1/4 fails. *)
Definition ex_solver : Solver (R * Z) :=
  mkSolver (R * Z) fst snd fst snd (fun s => s) (fun s => (1/2, s))
    (fun dt s => if Rle_dec dt (1/4) then ((fst s + dt, (snd s + 1)%Z), None)
                 else ((99, 99%Z), Some (mkTooLarge (1/4) 0)))
    (fun _ s => s).

(** Wants output after every step. *)
Definition ex_out : Output unit (R * Z) :=
  mkOutput unit (R * Z) (fun _ t => t + 1) (fun _ _ => true) (fun o _ => o).

(** Wants no output. *)
Definition ex_quiet : Output unit (R * Z) :=
  mkOutput unit (R * Z) (fun _ t => t + 1) (fun _ _ => false) (fun o _ => o).

(** Always fails with the same estimate. *)
Definition stuck_solver : Solver (R * Z) :=
  mkSolver (R * Z) fst snd fst snd (fun s => s) (fun s => (1/2, s))
    (fun dt s => ((99, 99%Z), Some (mkTooLarge (1/4) 0)))
    (fun _ s => s).

Definition ex_opts (b : bool) : RunOptions := mkRunOptions 1 (-1) 0 1 b.

Ltac no_dec t := lazymatch t with context [Rle_dec _ _] => fail | _ => idtac end.

Ltac crunch :=
  unfold run_simulation;
  repeat first
  [ progress unfold min3
  | progress unfold Rmin
  | match goal with
    | |- context [Rlt_dec ?a ?b] => no_dec a; no_dec b; destruct (Rlt_dec a b); try (exfalso; simpl in *; lra)
    | |- context [Rle_dec ?a ?b] => no_dec a; no_dec b; destruct (Rle_dec a b); try (exfalso; simpl in *; lra)
    end
  | progress cbn
  | progress unfold while_cond
  | progress unfold do_cond
  | progress unfold do_body
  | progress unfold step ].

Lemma ex_clock : clock_solver ex_solver.
Proof.
  split; [reflexivity|]. split; [reflexivity|].
  intros s dt p s' Hp. simpl in *. assert (p = s) by (destruct Hp; auto). subst p.
  destruct (Rle_dec dt (1/4)); intros H; inversion H; subst; reflexivity.
Qed.

Lemma stuck_clock : clock_solver stuck_solver.
Proof.
  split; [reflexivity|]. split; [reflexivity|].
  intros s dt p s' Hp. simpl in *. discriminate.
Qed.

Lemma ex_future : future_output ex_out.
Proof. intros o t. simpl. lra. Qed.

Lemma ex_honest : honest_solver ex_solver 1 (1/4).
Proof.
  split; [intros s; simpl; lra|].
  intros s dt p s' e Hp. simpl in *. destruct (Rle_dec dt (1/4)); intros H; inversion H; subst.
  simpl. split; [lra|]. intros dt' Hd. destruct (Rle_dec dt' (1/4)); [eauto|lra].
Qed.

Lemma ex_run_3 :
  exists c, run_simulation ex_solver ex_quiet (ex_opts true) 3 (0, 0%Z) tt = (c, AtDo) /\
  c_trace c = [Failed (0, 0%Z) (0 + 1) (1 * (1/2)) (mkTooLarge (1/4) 0);
               Accepted (0, 0%Z) (0 + 1) (1 * (1/4)) (0 + 1 * (1/4), 1%Z)].
Proof.
  crunch. eexists; split; reflexivity.
Qed.

Lemma ex_run_return :
  exists c, run_simulation ex_solver ex_quiet (ex_opts false) 2 (0, 0%Z) tt = (c, Returned) /\
  c_trace c = [Failed (0, 0%Z) (0 + 1) (1 * (1/2)) (mkTooLarge (1/4) 0)].
Proof.
  crunch.   eexists; split; reflexivity.
Qed.

Lemma C08_refuted_lemma :
  exists (St Ou : Type) (sv : Solver St) (out : Output Ou St) opts n s o c p,
    clock_solver sv /\ future_output out /\ 0 < cfl opts /\ 0 <= smallest_time_step_size opts /\
    run_simulation sv out opts n s o = (c, p) /\
    ~ NoDup (output_times sv (c_trace c)).
Proof.
  exists (R * Z)%type, unit, ex_solver, ex_out, (ex_opts true).
  assert (H : exists c p, run_simulation ex_solver ex_out (ex_opts true) 6 (0, 0%Z) tt = (c, p) /\
    output_times ex_solver (c_trace c) = [0; 0 + 1 * (1/4); 0 + 1 * (1/4)]).
  { crunch. eexists _, _; split; reflexivity. }
  destruct H as (c & p & H1 & H2).
  exists 6%nat, (0, 0%Z), tt, c, p.
  split; [apply ex_clock|]. split; [apply ex_future|]. split; [simpl; lra|]. split; [simpl; lra|].
  split; [exact H1|]. rewrite H2. intros HN. inversion HN as [|? ? ? HN']; subst.
  inversion HN' as [|? ? Hn ?]; subst. apply Hn. now left.
Qed.

Lemma C57_refuted_lemma :
  exists (St Ou : Type) (sv : Solver St) (out : Output Ou St) opts s o,
    clock_solver sv /\ future_output out /\ 0 < cfl opts /\ 0 <= smallest_time_step_size opts /\
    do_backup opts = true /\
    forall n, snd (run_simulation sv out opts n s o) <> Finished.
Proof.
  exists (R * Z)%type, unit, stuck_solver, ex_quiet, (ex_opts true), (0, 0%Z), tt.
  split; [apply stuck_clock|]. split; [intros o t; simpl; lra|].
  split; [simpl; lra|]. split; [simpl; lra|]. split; [reflexivity|].
  assert (G : forall n c, c_solver c = (0, 0%Z) -> c_time c = 0 -> c_backup c = Some (0, 0%Z) ->
     (c_failure c = None \/ c_failure c = Some (1/4)) ->
     snd (run_steps stuck_solver ex_quiet (ex_opts true) n c AtDo) <> Finished).
  { induction n as [|n IH]; intros c H1 H2 H3 H4; [discriminate|].
    simpl. unfold do_body. rewrite H1, H2, H3.
    destruct H4 as [-> | ->]; simpl.
    - destruct (Rlt_dec 0 (1/2)); [|lra]. simpl. unfold do_cond. simpl.
      rewrite ?H2. destruct (Rlt_dec (0 + 0) 1); [|lra]. simpl. apply IH; auto.
    - destruct (Rlt_dec 0 (1/4)); [|lra]. simpl. unfold do_cond. simpl.
      rewrite ?H2. destruct (Rlt_dec (0 + 0) 1); [|lra]. simpl. apply IH; auto. }
  intros [|n]; [discriminate|]. unfold run_simulation. simpl. unfold while_cond. simpl.
  destruct (Rlt_dec (0 + 0) 1); [|lra]. simpl. apply G; auto.
Qed.

Definition ex_small_opts : RunOptions := mkRunOptions (1/8) (-1) 0 1 true.

Lemma ex_run_out :
  exists c, run_simulation ex_solver ex_out ex_small_opts 2 (0, 0%Z) tt = (c, AtWhile) /\
    c_trace c = [Accepted (0, 0%Z) (0 + 1) (1/8 - 0) (0 + (1/8 - 0), 1%Z);
                 Outputted tt (0 + (1/8 - 0), 1%Z)].
Proof.
  crunch.   eexists; split; reflexivity.
Qed.

Lemma ex_termination_hyps : clock_solver ex_solver /\ future_output ex_out /\
  honest_solver ex_solver (cfl (ex_opts true)) (1/4) /\
  smallest_time_step_size (ex_opts true) < 1/4 /\
  (forall o t, t + 1 <= next_output_time ex_out o t).
Proof.
  split; [apply ex_clock|]. split; [apply ex_future|]. split; [apply ex_honest|].
  simpl. split; [lra|]. intros o t. lra.
Qed.
