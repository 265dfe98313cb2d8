(** Property C50: the pool allocator. *)
From Coq Require Import List ZArith Lia Bool FinFun.
From Verif Require Import PoolModel PoolSpec PoolProofs.
Import ListNotations.
Local Open Scope Z_scope.

(** Whenever a bucket is empty, the next two allocations of its size return the same block, both live. *)
Theorem C50_aliasing_refuted : forall cs s live bytes up up', history cs s live -> heads s bytes = 0 -> 8 <= bytes -> 0 < up -> 0 < up' ->
  (forall a n, In (a, n) (upstream s) -> up + (8 + bytes) <= a \/ a + n <= up) ->
  (forall a n, In (a, n) ((up, 8 + bytes) :: upstream s) -> up' + (8 + bytes) <= a \/ a + n <= up') ->
  exists p s', history (cs ++ [Allocate bytes up] ++ [Allocate bytes up']) s' ((p, bytes) :: (p, bytes) :: live).
Proof.
  intros cs s live bytes up up' H E B U U' F F'.
  exists (up + 8). eexists. rewrite app_assoc.
  eapply h_allocate; [eapply h_allocate; [exact H|lia|exact U|exact F|]|lia|exact U'| |].
  - unfold do_allocate. rewrite E. cbn [negb Z.eqb]. destruct (Z.ltb_spec bytes 8); [lia|]. reflexivity.
  - cbn [upstream]. exact F'.
  - unfold do_allocate. cbn [heads all]. rewrite put_same. destruct (Z.eqb_spec (up + 8) 0); [lia|]. cbn [negb].
    rewrite (proj2 (existsb_in (up + 8) (all s ++ [up + 8]))); [reflexivity|]. apply in_or_app. right. left. reflexivity.
Qed.
Print Assumptions C50_aliasing_refuted.

(** Giving a block back right after its first allocation makes the free list circular: all later allocations of
    that size, any number of them, return this same block. *)
Theorem C50_circular_refuted : forall bytes up, 8 <= bytes -> 0 < up -> forall k, exists cs s live,
  history cs s live /\ live = repeat (up + 8, bytes) k.
Proof.
  intros bytes up B U.
  pose (p := up + 8).
  pose (s2 := do_deallocate (mkPool (put (fun _ => 0) bytes p) (put (fun _ => 0) p 0) (put (fun _ => 0) p bytes) [p] [(up, 8 + bytes)]) p).
  assert (H2 : history [Allocate bytes up; Deallocate p] s2 []).
  { apply (h_deallocate [Allocate bytes up] (mkPool (put (fun _ => 0) bytes p) (put (fun _ => 0) p 0) (put (fun _ => 0) p bytes) [p] [(up, 8 + bytes)]) [] [] p bytes).
    apply (h_allocate [] new_pool [] bytes up p); [apply h_new|lia|assumption|intros a n []|].
    unfold do_allocate, new_pool. cbn [heads]. cbn [negb Z.eqb]. destruct (Z.ltb_spec bytes 8); [lia|]. reflexivity. }
  assert (H : forall k, exists cs s, history cs s (repeat (p, bytes) k) /\ heads s bytes = p /\ word s p = p /\ In p (all s) /\ upstream s = [(up, 8 + bytes)]).
  { induction k as [|k (cs & s & HH & E1 & E2 & E3 & E4)].
    - exists [Allocate bytes up; Deallocate p], s2. split; [exact H2|]. unfold s2, do_deallocate. cbn [heads word header all upstream].
      rewrite !put_same. split; [reflexivity|]. split; [reflexivity|]. split; [left; reflexivity|reflexivity].
    - exists (cs ++ [Allocate bytes (up + (8 + bytes))]). eexists. split; [|split; [|split; [|split]]].
      + cbn [repeat]. eapply h_allocate; [exact HH|lia| | |].
        * lia.
        * rewrite E4. intros a n [Q|[]]. apply pair_equal_spec in Q as [<- <-]. right. lia.
        * unfold do_allocate. rewrite E1. destruct (Z.eqb_spec p 0); [unfold p in *; lia|]. cbn [negb].
          rewrite (proj2 (existsb_in p (all s))) by assumption. reflexivity.
      + cbn [heads]. rewrite put_same. exact E2.
      + exact E2.
      + exact E3.
      + exact E4. }
  intros k. destruct (H k) as (cs & s & HH & _). exists cs, s, (repeat (p, bytes) k). split; [exact HH|reflexivity].
Qed.
Print Assumptions C50_circular_refuted.

(** A user who writes any non-null value, which is not the address of a block, into a block they have just
    obtained, makes the allocation after the next one read through that value. *)
Theorem C50_corruption_refuted : forall bytes up v, 8 <= bytes -> 0 < up -> v <> 0 -> v <> up + 8 ->
  exists cs s live, history cs s live /\ cs = [Allocate bytes up; Write (up + 8) v; Allocate bytes (up + (8 + bytes))] /\
    forall up', do_allocate s bytes up' = Wild.
Proof.
  intros bytes up v B U V N. eexists. eexists. eexists. split; [|split; [reflexivity|]].
  - change [Allocate bytes up; Write (up + 8) v; Allocate bytes (up + (8 + bytes))] with (([] ++ [Allocate bytes up]) ++ [Write (up + 8) v] ++ [Allocate bytes (up + (8 + bytes))]).
    rewrite app_assoc. eapply h_allocate; [eapply h_write; [eapply h_allocate; [apply h_new|lia|exact U|intros a n []|]|left; reflexivity]|lia|lia| |].
    + unfold do_allocate, new_pool. cbn [heads]. cbn [negb Z.eqb]. destruct (Z.ltb_spec bytes 8); [lia|]. reflexivity.
    + cbn [user_write upstream]. intros a n [Q|[]]. apply pair_equal_spec in Q as [<- <-]. right. lia.
    + unfold do_allocate, user_write. cbn [heads all word]. rewrite put_same. destruct (Z.eqb_spec (up + 8) 0); [lia|]. cbn [negb].
      cbn [app existsb]. rewrite Z.eqb_refl. cbn [orb]. reflexivity.
  - intros up'. unfold do_allocate. cbn [heads all]. rewrite !put_same. destruct (Z.eqb_spec v 0); [congruence|]. cbn [negb existsb app].
    destruct (Z.eqb_spec v (up + 8)); [congruence|]. reflexivity.
Qed.
Print Assumptions C50_corruption_refuted.

(** Requests for fewer than eight bytes from an empty bucket write a pointer into a block which is too small. *)
Theorem C50_small_blocks_refuted : forall s bytes up, heads s bytes = 0 -> 0 <= bytes < 8 -> do_allocate s bytes up = Overrun.
Proof.
  intros s bytes up E B. unfold do_allocate. rewrite E. cbn [negb Z.eqb]. destruct (Z.ltb_spec bytes 8); [reflexivity|lia].
Qed.
Print Assumptions C50_small_blocks_refuted.

(** What holds as long as no owner writes to their blocks: every live block consists of memory obtained from
    the upstream resource for exactly the requested number of bytes, an allocation never reads through a stray
    pointer, and live blocks of different sizes are disjoint.
    Missing: two live blocks of the same size are disjoint, see [C50_aliasing_refuted]. *)
Theorem C50_sizes_partial : forall cs s live, history cs s live -> no_writes cs ->
  (forall p bytes, In (p, bytes) live -> In (p - 8, 8 + bytes) (upstream s)) /\
  (forall bytes up, do_allocate s bytes up <> Wild) /\
  (forall p q n m, In (p, n) live -> In (q, m) live -> n <> m -> p <> q).
Proof.
  intros cs s live H NW. destruct (history_blocks cs s live H NW) as [[C1 C2] L]. split; [|split].
  - intros p bytes Q. apply (L p bytes Q).
  - intros bytes up. unfold do_allocate. destruct (Z.eqb_spec (heads s bytes) 0) as [E|E]; cbn [negb].
    + destruct (bytes <? 8); discriminate.
    + destruct (C1 bytes) as [Q|Q]; [congruence|]. rewrite (proj2 (existsb_in _ _)) by apply Q. discriminate.
  - intros p q n m P Q N ->. apply N. apply (block_header s q); apply L; assumption.
Qed.
Print Assumptions C50_sizes_partial.

(** The destructor gives every block obtained from the upstream resource back exactly once, in every history
    (with or without writes).  Missing: it passes the size 1 for all of them, see [C50_release_refuted]. *)
Theorem C50_release_partial : forall cs s live, history cs s live ->
  map fst (release s) = rev (map fst (upstream s)) /\ NoDup (map fst (release s)).
Proof.
  intros cs s live H. pose proof (history_inv cs s live H) as I. unfold release. rewrite map_map. cbn [fst]. split; [apply (i_len s I)|].
  apply FinFun.Injective_map_NoDup; [intros x y Q; lia|apply (i_nodup s I)].
Qed.
Print Assumptions C50_release_partial.

(** None of the sizes passed by the destructor is the size the block was obtained with. *)
Theorem C50_release_refuted : forall cs s live a n m, history cs s live -> In (a, n) (upstream s) -> In (a, m) (release s) -> m <> n.
Proof.
  intros cs s live a n m H U R. pose proof (i_up s (history_inv cs s live H) a n U) as (_ & Q & _).
  unfold release in R. apply in_map_iff in R as (p & E & _). apply pair_equal_spec in E as [_ <-]. lia.
Qed.
Print Assumptions C50_release_refuted.

(** Two allocations of 16 bytes from a new pool alias; with sizes 16 and 24 they do not. *)
Example C50_example :
  (exists s, history ([] ++ [Allocate 16 1000] ++ [Allocate 16 2000]) s [(1008, 16); (1008, 16)]) /\
  (exists s, history ([Allocate 16 1000] ++ [Allocate 24 2000]) s [(2008, 24); (1008, 16)] /\ no_writes ([Allocate 16 1000] ++ [Allocate 24 2000])).
Proof.
  assert (F : forall a n : Z, In (a, n) (upstream new_pool) -> 1000 + (8 + 16) <= a \/ a + n <= 1000) by (intros a n []).
  split.
  - eexists. cbn [app]. change [Allocate 16 1000; Allocate 16 2000] with ([Allocate 16 1000] ++ [Allocate 16 2000]).
    eapply h_allocate; [apply (h_allocate [] new_pool [] 16 1000 1008); [apply h_new|lia|lia|exact F|reflexivity]|lia|lia| |reflexivity].
    cbn [upstream]. intros a n [Q|[]]. apply pair_equal_spec in Q as [<- <-]. right. lia.
  - eexists. split.
    + eapply h_allocate; [apply (h_allocate [] new_pool [] 16 1000 1008); [apply h_new|lia|lia|exact F|reflexivity]|lia|lia| |reflexivity].
      cbn [upstream]. intros a n [Q|[]]. apply pair_equal_spec in Q as [<- <-]. right. lia.
    + intros p v [Q|[Q|[]]]; discriminate.
Qed.
