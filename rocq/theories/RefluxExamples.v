(** A concrete hierarchy with three levels for the examples (not code of /repo). *)
From Coq Require Import List ZArith Reals Lia Lra.
From Verif Require Import ArrayModel RefluxModel RefluxSpec.
Import ListNotations.
Local Open Scope Z_scope.

(** One dimension: coarse cells 0..3; cells 1 and 2 are refined by two (one patch each), of the fine cells
    2..5 the cells 3 and 4 are refined by three. *)
Definition rx_cells : list index := [[0]; [1]; [2]; [3]].
Definition rx_fine1 : refinement := mkRefinement [2] [[[1]]; [[2]]].
Definition rx_fine2 : refinement := mkRefinement [3] [[[3]; [4]]].
(** Some flux that differs on every level. *)
Definition rx_step (dt k : R) : split_step := mkStep 0 dt (fun c => (k + IZR (nth 0 c 0%Z))%R).
Definition rx_plan : plan :=
  Plan [Plan [Plan [] [rx_step (1/4) 7]; Plan [] [rx_step (1/4) 8]] [rx_step (1/2) 5];
        Plan [Plan [] [rx_step (1/4) 6]; Plan [] [rx_step (1/4) 9]] [rx_step (1/2) 3]]
       [rx_step 1 2].
Definition rx_data : list level_data :=
  [mkLevel (fun c => IZR (nth 0 c 0%Z)) (fun _ _ _ => 0%R); mkLevel (fun c => 1%R) (fun _ _ _ => 5%R);
   mkLevel (fun c => 2%R) (fun _ _ _ => 7%R)].

Ltac lists := repeat (cbn in *; match goal with
  | H : _ \/ _ |- _ => destruct H
  | H : False |- _ => contradiction
  | H : ?a = ?b |- _ => subst a || subst b || discriminate H
  end).

Lemma rx_well_formed : well_formed 1 [rx_fine1; rx_fine2] rx_cells.
Proof.
  cbn [well_formed].
  split; [repeat constructor; cbn; intuition discriminate|]. split; [intros c Hc; lists; reflexivity|].
  split; [reflexivity|]. split; [repeat constructor; lia|]. split; [cbn; repeat constructor; cbn; intuition discriminate|].
  split; [intros c Hc; lists; cbn; auto|].
  assert (refined rx_fine1 = [[2]; [3]; [4]; [5]]) as -> by reflexivity.
  split; [repeat constructor; cbn; intuition discriminate|]. split; [intros c Hc; lists; reflexivity|].
  split; [reflexivity|]. split; [repeat constructor; lia|]. split; [cbn; repeat constructor; cbn; intuition discriminate|].
  split; [intros c Hc; lists; cbn; auto|].
  assert (refined rx_fine2 = [[9]; [10]; [11]; [12]; [13]; [14]]) as -> by reflexivity.
  split; [repeat constructor; cbn; intuition discriminate|]. split; [intros c Hc; lists; reflexivity|exact I].
Qed.

Lemma rx_nested : nested 1 [rx_fine1; rx_fine2] rx_cells (fun c => In c rx_cells).
Proof.
  cbn [nested]. split.
  - intros c d Hc Hd. assert (d = 0%nat) as -> by lia. cbn in Hc. destruct Hc as [<-|[<-|[]]]; split; left; cbn; tauto.
  - split; [|exact I]. assert (refined rx_fine1 = [[2]; [3]; [4]; [5]]) as -> by reflexivity. intros c d Hc Hd. assert (d = 0%nat) as -> by lia. cbn in Hc. destruct Hc as [<-|[<-|[]]]; split; left; cbn; tauto.
Qed.
