(** Concrete data for the examples of the update properties (not code of /repo). *)
From Coq Require Import List ZArith Reals Lia Lra.
From Verif Require Import ArrayModel ArraySpec ArrayProofs BoxProofs UpdateModel UpdateSpec UpdateProofs4.
Import ListNotations.
Local Open Scope Z_scope.

(** A 3 x 2 patch of one component updated in place, elements 0..5; fluxes on 4 x 2 faces in x direction,
    elements 10..17.  Every element may be accessed and contains its own number. *)
Definition ux_state : PatchDataView := mkView (mkMdspan 0 (LayoutStride [3; 2; 1] [1; 3; 6])) [0; 0; 0].
Definition ux_flux : PatchDataView := mkView (mkMdspan 10 (LayoutStride [4; 2; 1] [1; 4; 8])) [0; 0; 0].
Definition ux_memory : memory := fun a => if ((0 <=? a) && (a <? 20))%bool%Z then Some (IZR a) else None.
(** the value of lanes that were never loaded *)
Definition ux_stale (width n : nat) : list R := repeat 99%R (width - n).

Lemma ux_cells c : in_box (pdv_box ux_state) c ->
  exists i j, c = [i; j; 0] /\ 0 <= i < 3 /\ 0 <= j < 2.
Proof.
  intros (L & _ & H). cbn [pdv_box lower pdv_origin ux_state length] in L.
  destruct c as [|i [|j [|k [|]]]]; try discriminate L.
  pose proof (H 0%nat ltac:(cbn; lia)) as H0. pose proof (H 1%nat ltac:(cbn; lia)) as H1. pose proof (H 2%nat ltac:(cbn; lia)) as H2.
  cbn in H0, H1, H2. exists i, j. split; [f_equal; f_equal; f_equal; lia|lia].
Qed.

Lemma ux_alloc a : 0 <= a < 20 -> allocated ux_memory a.
Proof.
  intros H. unfold allocated, ux_memory.
  destruct (Z.leb_spec 0 a); [|lia]. destruct (Z.ltb_spec a 20); [|lia]. discriminate.
Qed.

Lemma ux_ok : update_data_ok ux_memory ux_state ux_state ux_flux 0.
Proof.
  split.
  - intros c c' Hc Hc'. destruct (ux_cells c Hc) as (i & j & -> & Hi & Hj). destruct (ux_cells c' Hc') as (i' & j' & -> & Hi' & Hj').
    unfold pdv_at, md_at. cbn -[Z.mul Z.add Z.sub].
    assert (j = 0 \/ j = 1) as [-> | ->] by lia; assert (j' = 0 \/ j' = 1) as [-> | ->] by lia;
    (split; [intros E; f_equal; try f_equal; lia|]; split; [intros E; f_equal; try f_equal; lia|]; split; lia).
  - intros c Hc. destruct (ux_cells c Hc) as (i & j & -> & Hi & Hj).
    unfold pdv_at, md_at. cbn -[Z.mul Z.add Z.sub].
    repeat split; apply ux_alloc; lia.
Qed.

(** The same patch as two arrays for the forward integrator, with ghost cells around the tile: state on
    5 x 4 cells from (-1,-1), fluxes on the 4 x 2 faces of the tile 3 x 2. *)
Definition uf_state : PatchDataView := mkView (mkMdspan 0 (LayoutLeft [5; 4; 1])) [-1; -1; 0].
Definition uf_flux : PatchDataView := mkView (mkMdspan 20 (LayoutLeft [4; 2; 1])) [0; 0; 0].
Definition uf_tile : IndexBox := mkBox [-1; -1] [4; 3].
Definition uf_faces : IndexBox := mkBox [0; 0] [4; 2].
Definition uf_memory : memory := fun a => if ((0 <=? a) && (a <? 28))%bool%Z then Some (IZR a) else None.

Lemma uf_alloc a : 0 <= a < 28 -> allocated uf_memory a.
Proof.
  intros H. unfold allocated, uf_memory.
  destruct (Z.leb_spec 0 a); [|lia]. destruct (Z.ltb_spec a 28); [|lia]. discriminate.
Qed.

Lemma uf_state_stored : stored uf_memory 3 uf_state.
Proof.
  split; [reflexivity|]. split; [reflexivity|]. split; [repeat constructor; lia|]. split; [discriminate|].
  intros i Hi. apply uf_alloc. assert (0 <= pdv_at uf_state i < 0 + 20) as H.
  { apply (dense_at_bounds uf_state); [reflexivity|repeat constructor; lia|discriminate|assumption]. }
  lia.
Qed.

Lemma uf_flux_stored : stored uf_memory 3 uf_flux.
Proof.
  split; [reflexivity|]. split; [reflexivity|]. split; [repeat constructor; lia|]. split; [discriminate|].
  intros i Hi. apply uf_alloc. assert (20 <= pdv_at uf_flux i < 20 + 8) as H.
  { apply (dense_at_bounds uf_flux); [reflexivity|repeat constructor; lia|discriminate|assumption]. }
  lia.
Qed.

Lemma uf_apart : apart uf_state uf_flux.
Proof.
  intros i j Hi Hj.
  assert (0 <= pdv_at uf_state i < 0 + 20) as H
    by (apply (dense_at_bounds uf_state); [reflexivity|repeat constructor; lia|discriminate|assumption]).
  assert (20 <= pdv_at uf_flux j < 20 + 8) as H'
    by (apply (dense_at_bounds uf_flux); [reflexivity|repeat constructor; lia|discriminate|assumption]).
  lia.
Qed.

Lemma box2_in l0 l1 u0 u1 c : in_box (mkBox [l0; l1] [u0; u1]) c <-> exists i j, c = [i; j] /\ l0 <= i < u0 /\ l1 <= j < u1.
Proof.
  split.
  - intros (L & _ & H). cbn in L. destruct c as [|i [|j [|]]]; try discriminate L.
    pose proof (H 0%nat ltac:(cbn; lia)) as H0. pose proof (H 1%nat ltac:(cbn; lia)) as H1. cbn in H0, H1.
    exists i, j. auto.
  - intros (i & j & -> & H0 & H1). split; [reflexivity|]. split; [reflexivity|]. intros r Hr. cbn in Hr.
    destruct r as [|[|r]]; cbn; lia.
Qed.

(** Fluxes: states on 4 cells (elements 0..3), fluxes on the 3 inner faces (elements 10..12), one component;
    the flux is the sum of the two neighbours. *)
Definition un_states : PatchDataView := mkView (mkMdspan 0 (LayoutStride [4] [1])) [0].
Definition un_fluxes : PatchDataView := mkView (mkMdspan 10 (LayoutStride [3] [1])) [1].
Definition un_K (xs : list R) : list R := [(nth 0 xs 0 + nth 1 xs 0)%R].
Definition un_kernel (vs : list (list R)) : list (list R) :=
  [map (fun p => (fst p + snd p)%R) (combine (nth 0 vs []) (nth 1 vs []))].

Lemma un_lanewise width : lanewise width 2 1 un_kernel un_K.
Proof.
  intros vs L H. destruct vs as [|a [|b [|]]]; try discriminate L. inversion H as [|? ? Ha H']; subst. inversion H' as [|? ? Hb _]; subst.
  unfold un_kernel. cbn [nth]. split; [reflexivity|]. split.
  - constructor; [|constructor]. rewrite map_length, combine_length. lia.
  - intros i Hi. cbn [map nth]. unfold un_K. cbn [nth]. f_equal.
    change 0%R with ((fun p : R * R => (fst p + snd p)%R) (0%R, 0%R)) at 1 || idtac.
    rewrite (nth_indep _ 0%R ((fun p : R * R => (fst p + snd p)%R) (0%R, 0%R))) by (rewrite map_length, combine_length; lia).
    rewrite (map_nth (fun p : R * R => (fst p + snd p)%R)). rewrite combine_nth by lia. reflexivity.
Qed.

Lemma un_faces f : in_box (pdv_box un_fluxes) f -> exists i, f = [i] /\ 1 <= i < 4.
Proof.
  intros (L & _ & H). cbn in L. destruct f as [|i [|]]; try discriminate L.
  pose proof (H 0%nat ltac:(cbn; lia)) as H0. cbn in H0. exists i. split; [reflexivity|lia].
Qed.

Lemma un_ok : flux_data_ok ux_memory (pdv_box un_fluxes) [un_fluxes] [un_states] 0 1.
Proof.
  split; [|split; [|split]].
  - intros f f' i j Hf Hf' Hi Hj E. cbn in Hi, Hj. assert (i = 0%nat) as -> by lia. assert (j = 0%nat) as -> by lia.
    destruct (un_faces f Hf) as (x & -> & Hx). destruct (un_faces f' Hf') as (y & -> & Hy).
    unfold pdv_at, md_at in E. cbn -[Z.mul Z.add Z.sub] in E. split; [f_equal; lia|reflexivity].
  - intros f f' g s k Hf Hf' [<-|[]] [<-|[]] Hk. destruct (un_faces f Hf) as (x & -> & Hx). destruct (un_faces f' Hf') as (y & -> & Hy).
    unfold pdv_at, md_at. cbn -[Z.mul Z.add Z.sub]. lia.
  - intros f g Hf [<-|[]]. destruct (un_faces f Hf) as (x & -> & Hx). apply ux_alloc.
    unfold pdv_at, md_at. cbn -[Z.mul Z.add Z.sub]. lia.
  - intros f s k Hf [<-|[]] Hk. destruct (un_faces f Hf) as (x & -> & Hx). apply ux_alloc.
    unfold pdv_at, md_at. cbn -[Z.mul Z.add Z.sub]. lia.
Qed.
