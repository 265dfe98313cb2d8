(** Concrete operators used in the examples beside the theorems of SplitProperties.v. *)
From Coq Require Import Reals List Arith Lia Lra.
From Verif Require Import SplitModel SplitSpec SplitProofs.
Import ListNotations.
Local Open Scope R_scope.

(** Example operators; they do not correspond to code in /repo. *)
Definition count_op : op nat := fun _ n => (S n, None).
Definition fail_op : op nat := fun _ n => ((n + 10)%nat, Some (mkTooLarge (/8) 1)).
Definition shear1 (t : R) (p : R * R) : R * R := (fst p + t * snd p, snd p).
Definition shear2 (t : R) (p : R * R) : R * R := (fst p, snd p + t * fst p).
Definition shift (v t x : R) : R := x + v * t.

Lemma C01_example_lemma :
  advance StrangLumped (logged_from 0 [count_op; count_op; count_op]) 4 ([], 0%nat)
  = (([mkCall 0 (/2*4) None; mkCall 1 (/2*4) None; mkCall 2 4 None; mkCall 1 (/2*4) None;
       mkCall 0 (/2*4) None], 5%nat), None).
Proof. reflexivity. Qed.

Lemma C02_example_lemma :
  advance Strang (logged_from 0 [count_op; fail_op]) 2 ([], 0%nat)
  = (([mkCall 0 (/2*2) None; mkCall 1 (/2*2) (Some (mkTooLarge (/8) 1))], 11%nat),
     Some (mkTooLarge (/8) 1)).
Proof. reflexivity. Qed.

Lemma shear1_flow : is_flow shear1.
Proof.
  split.
  - intros [x y]. unfold shear1; simpl. f_equal; lra.
  - intros s t [x y]. unfold shear1; simpl. f_equal; lra.
Qed.

Lemma shear2_flow : is_flow shear2.
Proof.
  split.
  - intros [x y]. unfold shear2; simpl. f_equal; lra.
  - intros s t [x y]. unfold shear2; simpl. f_equal; lra.
Qed.

Lemma shift_flow v : is_flow (shift v).
Proof. split; intros; unfold shift; lra. Qed.

Lemma C03_godunov_not_reversible_lemma : exists (W : Type) (phis : list (R -> W -> W)) dt w,
  (forall phi, In phi phis -> is_flow phi) /\
  fst (advance Godunov (map flow_op phis) (- dt) (fst (advance Godunov (map flow_op phis) dt w))) <> w.
Proof.
  exists (R * R)%type, [shear1; shear2], 1, (1, 0). split.
  - intros phi [<-|[<-|[]]]; [apply shear1_flow|apply shear2_flow].
  - cbn. unfold bind, flow_op, shear1, shear2; simpl. intros H. inversion H as [[H1 H2]]. lra.
Qed.

Lemma C03_example_lemma :
  (forall phi, In phi [shear1; shear2] -> is_flow phi) /\
  shear1 1 (shear2 1 (1, 0)) <> shear2 1 (shear1 1 (1, 0)) /\
  (forall phi, In phi [shift 1; shift 2; shift 3] -> is_flow phi) /\
  (forall phi psi, In phi [shift 1; shift 2; shift 3] -> In psi [shift 1; shift 2; shift 3] ->
     forall a b w, phi a (psi b w) = psi b (phi a w)).
Proof.
  repeat split.
  1-2: destruct H as [<-|[<-|[]]]; [apply shear1_flow|apply shear2_flow].
  - unfold shear1, shear2; simpl. intros H. inversion H. lra.
  - destruct H as [<-|[<-|[<-|[]]]]; apply shift_flow.
  - destruct H as [<-|[<-|[<-|[]]]]; apply shift_flow.
  - intros phi psi [<-|[<-|[<-|[]]]] [<-|[<-|[<-|[]]]]; intros; unfold shift; lra.
Qed.

Lemma C56_partial_lemma : forall (m : method) (W : Type) (fs : list (op W)) dt w,
  length fs <> 3%nat ->
  advance (AnySplit m) fs dt w = advance m fs dt w.
Proof.
  intros m W fs dt w H. rewrite !advance_run. f_equal.
  assert (G : forall n i t, sched_rec (AnySplit m) i n t = sched_rec m i n t).
  { induction n as [|n IH]; intros i t; [reflexivity|].
    destruct n as [|n]; [reflexivity|].
    change (sched_rec m i (S (S n)) t) with
      (sched2 m t (fun t => [(i, t)]) (fun t => sched_rec m (S i) (S n) t)).
    change (sched_rec (AnySplit m) i (S (S n)) t) with
      (sched2 m t (fun t => [(i, t)]) (fun t => sched_rec (AnySplit m) (S i) (S n) t)).
    assert (E : forall p1 p2 q2, (forall t : R, p2 t = q2 t) ->
      forall t, sched2 m t p1 p2 = sched2 m t p1 q2).
    { clear. intros p1 p2 q2 E. induction m; intros t; simpl; rewrite ?E; auto. }
    apply E. intros s. apply IH. }
  destruct (length fs) as [|[|[|[|n]]]]; try apply G. congruence.
Qed.

Lemma C56_refuted_lemma : exists (fs : list (op nat)) dt w,
  fst (fst (advance (AnySplit Strang) (logged_from 0 fs) dt ([], w))) <>
  fst (fst (advance Strang (logged_from 0 fs) dt ([], w))).
Proof.
  exists [count_op; count_op; count_op], 1, 0%nat. cbn. intros H. inversion H.
Qed.

Lemma C56_example_lemma : length [count_op; fail_op] <> 3%nat.
Proof. discriminate. Qed.
