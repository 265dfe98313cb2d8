(** Concrete data used beside the theorems of OutputProperties.v (not code of /repo). *)
From Coq Require Import Reals List ZArith Lia Lra.
From Verif Require Import OutputModel OutputSpec OutputProofs.
Import ListNotations.
Local Open Scope R_scope.

Definition ex_at : OutputAt := mkOutputAt [5%Z] [2; 3] (1/100).

Lemma ex_next : next_output_time_at 1000 ex_at 1 = 2 + 1/100.
Proof.
  unfold next_output_time_at, ex_at, next_output_iter; simpl.
  destruct (Rlt_dec 0 2); [|lra]. destruct (Rlt_dec 0 3); [|lra].
  rewrite (fmod_unique 1 2 0 1), (fmod_unique 1 3 0 1) by lra.
  unfold Rmin. repeat destruct (Rle_dec _ _); lra.
Qed.

Lemma ex_at_hyps : 0 <= 1 < 1000 /\ 0 < out_eps ex_at /\
  (forall f, In f (frequencies ex_at) -> f <> 0%Z) /\
  (forall I, In I (intervals ex_at) -> 0 < I /\ 2 * out_eps ex_at <= I).
Proof.
  simpl. split; [lra|]. split; [lra|]. split.
  - intros f [<-|[]]. lia.
  - intros I [<-|[<-|[]]]; lra.
Qed.

(** Three members: one due, one not due, one due; plus a null pointer. Acting appends a name. *)
Definition ex_member (n : nat) (b : bool) (t : R) : Member unit (list nat) :=
  mkMember (fun _ => t) (fun _ => b) (fun _ w => w ++ [n]).
Definition ex_members : list (option (Member unit (list nat))) :=
  [Some (ex_member 1 true 5); None; Some (ex_member 2 false 4); Some (ex_member 3 true 7)].
