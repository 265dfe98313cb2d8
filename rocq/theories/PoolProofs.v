(** Lemmas about the pool allocator. *)
From Coq Require Import List ZArith Lia Bool.
From Verif Require Import PoolModel PoolSpec.
Import ListNotations.
Local Open Scope Z_scope.

Lemma put_same f k v : put f k v k = v.
Proof. unfold put. rewrite Z.eqb_refl. reflexivity. Qed.
Lemma put_other f k v x : x <> k -> put f k v x = f x.
Proof. intros H. unfold put. apply Z.eqb_neq in H. rewrite H. reflexivity. Qed.

Definition block (s : pool) (p bytes : Z) : Prop := In p (all s) /\ header s p = bytes /\ In (p - 8, 8 + bytes) (upstream s).

(** Blocks are disjoint, every bucket only leads to blocks of its size. *)
Record pool_inv (s : pool) : Prop := {
  i_up : forall a n, In (a, n) (upstream s) -> 0 < a /\ 8 <= n /\ In (a + 8) (all s) /\ header s (a + 8) = n - 8;
  i_all : forall p, In p (all s) -> exists bytes, block s p bytes;
  i_nodup : NoDup (all s);
  i_len : map (fun p => p - 8) (all s) = rev (map fst (upstream s)) }.

Definition chain_inv (s : pool) : Prop :=
  (forall b, heads s b = 0 \/ block s (heads s b) b) /\
  (forall p b, block s p b -> word s p = 0 \/ block s (word s p) b).

Lemma existsb_in p l : existsb (Z.eqb p) l = true <-> In p l.
Proof.
  rewrite existsb_exists. split.
  - intros (x & H & E). apply Z.eqb_eq in E. subst. assumption.
  - intros H. exists p. split; [assumption|apply Z.eqb_refl].
Qed.

(** The two branches of allocate. *)
Lemma allocate_cases s bytes up p s' : do_allocate s bytes up = Ok p s' ->
  (heads s bytes <> 0 /\ p = heads s bytes /\ In p (all s) /\
   s' = mkPool (put (heads s) bytes (word s p)) (word s) (header s) (all s) (upstream s)) \/
  (heads s bytes = 0 /\ p = up + 8 /\ 8 <= bytes /\
   s' = mkPool (put (heads s) bytes p) (put (word s) p 0) (put (header s) p bytes) (all s ++ [p]) ((up, 8 + bytes) :: upstream s)).
Proof.
  unfold do_allocate. destruct (Z.eqb_spec (heads s bytes) 0) as [E|E]; cbn [negb].
  - destruct (Z.ltb_spec bytes 8); [discriminate|]. intros Q. injection Q as <- <-. right. rewrite E. auto.
  - destruct (existsb (Z.eqb (heads s bytes)) (all s)) eqn:X; [|discriminate]. intros Q. injection Q as <- <-.
    apply existsb_in in X. left. auto.
Qed.

Lemma fresh_not_in s bytes up : pool_inv s -> 0 <= bytes ->
  (forall a n, In (a, n) (upstream s) -> up + (8 + bytes) <= a \/ a + n <= up) -> ~ In (up + 8) (all s).
Proof.
  intros I B F H. apply (i_all s I) in H as (b & _ & _ & H). replace (up + 8 - 8) with up in H by lia.
  destruct (F _ _ H) as [Q|Q]; [lia|]. apply (i_up s I) in H. lia.
Qed.

Lemma allocate_inv s bytes up p s' : pool_inv s -> 0 <= bytes -> 0 < up ->
  (forall a n, In (a, n) (upstream s) -> up + (8 + bytes) <= a \/ a + n <= up) ->
  do_allocate s bytes up = Ok p s' -> pool_inv s'.
Proof.
  intros I B U F E. pose proof (fresh_not_in s bytes up I B F) as N. apply allocate_cases in E as [(_ & _ & _ & ->)|(_ & -> & L & ->)].
  - destruct I as [I1 I2 I3 I4]. split; assumption.
  - destruct I as [I1 I2 I3 I4]. split; cbn [upstream all header].
    + intros a n [Q|Q].
      * apply pair_equal_spec in Q as [<- <-]. split; [lia|]. split; [lia|]. split; [apply in_or_app; right; left; reflexivity|]. rewrite put_same. lia.
      * destruct (I1 a n Q) as (J1 & J2 & J3 & J4). split; [lia|]. split; [lia|]. split; [apply in_or_app; left; assumption|].
        rewrite put_other by (intros X; rewrite X in J3; contradiction). assumption.
    + intros p Hp. apply in_app_or in Hp as [Hp|[<- |[]]].
      * destruct (I2 p Hp) as (b & B1 & B2 & B3). exists b. split; [apply in_or_app; left; assumption|]. cbn [header upstream]. split.
        -- rewrite put_other by (intros X; rewrite X in Hp; contradiction). assumption.
        -- right. assumption.
      * exists bytes. split; [apply in_or_app; right; left; reflexivity|]. cbn [header upstream]. split; [apply put_same|].
        left. f_equal. lia.
    + apply NoDup_rev in I3. rewrite <- (rev_involutive (all s ++ _)). apply NoDup_rev. rewrite rev_app_distr. cbn [rev app].
      constructor; [|assumption]. intros Q. apply in_rev in Q. contradiction.
    + rewrite map_app, I4. cbn [map fst rev]. f_equal. f_equal. lia.
Qed.

Lemma block_header s p b b' : block s p b -> block s p b' -> b = b'.
Proof. intros (_ & A & _) (_ & B & _). congruence. Qed.

Lemma allocate_chain s bytes up p s' : pool_inv s -> chain_inv s -> 0 <= bytes -> 0 < up ->
  (forall a n, In (a, n) (upstream s) -> up + (8 + bytes) <= a \/ a + n <= up) ->
  do_allocate s bytes up = Ok p s' -> chain_inv s' /\ block s' p bytes /\ (forall q b, block s q b -> block s' q b).
Proof.
  intros I [C1 C2] B U F E. pose proof (fresh_not_in s bytes up I B F) as N.
  apply allocate_cases in E as [(H & -> & A & ->)|(H & -> & L & ->)].
  - assert (BH : block s (heads s bytes) bytes) by (destruct (C1 bytes); [contradiction|assumption]).
    split; [|split; [exact BH|auto]]. split; cbn [heads word].
    + intros b. destruct (Z.eq_dec b bytes) as [-> | Nb].
      * rewrite put_same. destruct (C2 _ _ BH) as [Q|Q]; [left|right]; exact Q.
      * rewrite put_other by assumption. destruct (C1 b) as [Q|Q]; [left|right]; exact Q.
    + intros q b Q. apply C2. exact Q.
  - set (s' := mkPool _ _ _ _ _).
    assert (UP : forall q b, block s q b -> block s' q b).
    { intros q b (Q1 & Q2 & Q3). split; [apply in_or_app; left; assumption|]. cbn [header upstream s']. split; [|right; assumption].
      rewrite put_other by (intros X; rewrite X in Q1; contradiction). assumption. }
    assert (NEW : block s' (up + 8) bytes).
    { split; [apply in_or_app; right; left; reflexivity|]. cbn [header upstream s']. split; [apply put_same|]. left. f_equal. lia. }
    assert (DOWN : forall q b, block s' q b -> q <> up + 8 -> block s q b).
    { intros q b (Q1 & Q2 & Q3) Q. cbn [header upstream all s'] in *. apply in_app_or in Q1 as [Q1|[Q1|[]]]; [|congruence].
      rewrite put_other in Q2 by assumption. split; [assumption|]. split; [assumption|].
      destruct Q3 as [Q3|Q3]; [|assumption]. apply pair_equal_spec in Q3 as [X _]. lia. }
    split; [|split; [exact NEW|exact UP]]. split; cbn [heads word].
    + intros b. cbn [heads s']. destruct (Z.eq_dec b bytes) as [-> | Nb].
      * rewrite put_same. right. exact NEW.
      * rewrite put_other by assumption. destruct (C1 b) as [Q|Q]; [left; exact Q|right; apply UP, Q].
    + intros q b Q. cbn [word s']. destruct (Z.eq_dec q (up + 8)) as [-> | Nq].
      * rewrite put_same. left. reflexivity.
      * rewrite put_other by assumption. destruct (C2 q b (DOWN q b Q Nq)) as [X|X]; [left; exact X|right; apply UP, X].
Qed.

Lemma deallocate_inv s p : pool_inv s -> pool_inv (do_deallocate s p).
Proof. intros [I1 I2 I3 I4]. split; assumption. Qed.

Lemma deallocate_chain s p bytes : chain_inv s -> block s p bytes -> chain_inv (do_deallocate s p).
Proof.
  intros [C1 C2] B. assert (H : header s p = bytes) by apply B. unfold do_deallocate. rewrite H. split; cbn [heads word].
  - intros b. destruct (Z.eq_dec b bytes) as [-> | N].
    + rewrite put_same. right. exact B.
    + rewrite put_other by assumption. destruct (C1 b) as [Q|Q]; [left|right]; exact Q.
  - intros q b Q. destruct (Z.eq_dec q p) as [-> | N].
    + rewrite put_same. assert (b = bytes) as -> by (apply (block_header s p); [exact Q|exact B]).
      destruct (C1 bytes) as [X|X]; [left|right]; exact X.
    + rewrite put_other by assumption. destruct (C2 q b Q) as [X|X]; [left|right]; exact X.
Qed.

Lemma write_inv s p v : pool_inv s -> pool_inv (user_write s p v).
Proof. intros [I1 I2 I3 I4]. split; assumption. Qed.

Lemma new_inv : pool_inv new_pool /\ chain_inv new_pool.
Proof.
  split.
  - split; cbn; try (intros; contradiction); [constructor|reflexivity].
  - split; [intros b; left; reflexivity|]. intros p b ([] & _).
Qed.

Lemma history_inv cs s live : history cs s live -> pool_inv s.
Proof.
  induction 1 as [|cs s live bytes up p s' H IH B U F E|cs s l1 l2 p bytes H IH|cs s live p bytes v H IH HIn].
  - apply new_inv.
  - apply (allocate_inv s bytes up p); assumption.
  - apply deallocate_inv, IH.
  - apply write_inv, IH.
Qed.

Lemma history_blocks cs s live : history cs s live -> no_writes cs ->
  chain_inv s /\ forall p bytes, In (p, bytes) live -> block s p bytes.
Proof.
  induction 1 as [|cs s live bytes up p s' H IH B U F E|cs s l1 l2 p bytes H IH|cs s live p bytes v H IH HIn]; intros NW.
  - split; [apply new_inv|intros p bytes []].
  - destruct IH as [C L]; [intros q v Q; apply (NW q v); apply in_or_app; left; assumption|].
    destruct (allocate_chain s bytes up p s' (history_inv _ _ _ H) C B U F E) as (C' & N & UP).
    split; [exact C'|]. intros q b [Q|Q]; [injection Q as <- <-; exact N|apply UP, L, Q].
  - destruct IH as [C L]; [intros q v Q; apply (NW q v); apply in_or_app; left; assumption|].
    split.
    + apply (deallocate_chain s p bytes C). apply L. apply in_or_app. right. left. reflexivity.
    + intros q b Q. apply (L q b). apply in_app_or in Q. apply in_or_app. destruct Q; [left|right; right]; assumption.
  - exfalso. apply (NW p v). apply in_or_app. right. left. reflexivity.
Qed.
