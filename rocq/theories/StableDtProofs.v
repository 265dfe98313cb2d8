(** Lemmas for C32. *)
From Coq Require Import List ZArith Reals Lia Lra Bool.
From Verif Require Import ArrayModel ArraySpec ArrayProofs BoxProofs FluxModel StableDtModel StableDtSpec.
Import ListNotations.
Local Open Scope Z_scope.

Lemma dt_le_refl a : dt_le a a.
Proof. destruct a; cbn; auto. lra. Qed.
Lemma dt_le_trans a b c : dt_le a b -> dt_le b c -> dt_le a c.
Proof. destruct a, b, c; cbn; auto; try contradiction. lra. Qed.
Lemma min_dt_l a b : dt_le (min_dt a b) a.
Proof. destruct a, b; cbn; auto; try lra. apply Rmin_l. Qed.
Lemma min_dt_r a b : dt_le (min_dt a b) b.
Proof. destruct a, b; cbn; auto; try lra. apply Rmin_r. Qed.
Lemma min_dt_choice a b : min_dt a b = a \/ min_dt a b = b.
Proof. destruct a, b; cbn; auto. unfold Rmin. destruct (Rle_dec t t0); auto. Qed.

Lemma fold_min_le {A} (f : A -> time_step) l acc :
  dt_le (fold_left (fun m x => min_dt (f x) m) l acc) acc /\
  (forall x, In x l -> dt_le (fold_left (fun m x => min_dt (f x) m) l acc) (f x)) /\
  (fold_left (fun m x => min_dt (f x) m) l acc = acc \/ exists x, In x l /\ fold_left (fun m x => min_dt (f x) m) l acc = f x).
Proof.
  revert acc. induction l as [|a l IH]; intros acc; cbn.
  - split; [apply dt_le_refl|]. split; [contradiction | auto].
  - destruct (IH (min_dt (f a) acc)) as (H1 & H2 & H3). split; [eapply dt_le_trans; [apply H1 | apply min_dt_r]|]. split.
    + intros x [-> | Hx]; [eapply dt_le_trans; [apply H1 | apply min_dt_l] | auto].
    + destruct H3 as [H3 | (x & Hx & H3)]; [|right; eauto]. rewrite H3. destruct (min_dt_choice (f a) acc) as [-> | ->]; [right; eauto | auto].
Qed.

Section S.
Variables (S : Type) (stable : list S -> time_step).
Notation seqdt := (ComputeStableDt_seq S stable).

Lemma seq_covers n box states dir size c : box_of_rank n box -> (dir < n)%nat ->
  in_box (Shrink box dir (0, Z.of_nat size)) c ->
  dt_le (seqdt box states dir size) (stable (cells_of states dir size c)).
Proof.
  intros [L1 L2] Hd Hc. unfold ComputeStableDt_seq, ForEachIndex.
  destruct (fold_min_le (fun face => stable (stencil S states dir size face))
              (loop_indices (lower (Shrink box dir (0, Z.of_nat size))) (upper (Shrink box dir (0, Z.of_nat size)))) Infinite) as (_ & H & _).
  apply (H c). apply loop_indices_in; [|exact Hc]. cbn. rewrite !set_nth_length. congruence.
Qed.

Lemma seq_attained n box states dir size : box_of_rank n box -> (dir < n)%nat ->
  seqdt box states dir size = Infinite \/
  exists c, in_box (Shrink box dir (0, Z.of_nat size)) c /\ seqdt box states dir size = stable (cells_of states dir size c).
Proof.
  intros [L1 L2] Hd. unfold ComputeStableDt_seq, ForEachIndex.
  destruct (fold_min_le (fun face => stable (stencil S states dir size face))
              (loop_indices (lower (Shrink box dir (0, Z.of_nat size))) (upper (Shrink box dir (0, Z.of_nat size)))) Infinite) as (_ & _ & [H | (c & Hc & H)]).
  - left. exact H.
  - right. exists c. split; [|exact H]. apply loop_indices_in; [|exact Hc]. cbn. rewrite !set_nth_length. congruence.
Qed.

(** ** Rows *)
Lemma rows_in n box dir size c : box_of_rank n box -> (0 < n)%nat ->
  (exists row, In row (stencil_rows box dir size) /\ In c row) <-> in_box (Shrink box dir (0, Z.of_nat size - 1)) c.
Proof.
  intros [L1 L2] Hn. unfold stencil_rows. cbv zeta. set (b := Shrink _ _ _).
  assert (Hl : length (lower b) = length (upper b)) by (unfold b; cbn; rewrite !set_nth_length; congruence).
  assert (Hp : length (lower b) = n) by (unfold b; cbn; rewrite set_nth_length; congruence).
  rewrite <- (loop_indices_in (lower b) (upper b) c Hl).
  destruct (lower b) as [|l ls], (upper b) as [|u us]; cbn [length] in *; try lia.
  cbn [loop_indices]. rewrite in_flat_map. split.
  - intros (row & Hr & Hc). apply in_map_iff in Hr. destruct Hr as (o & <- & Ho). exists o. auto.
  - intros (o & Ho & Hc). exists (map (fun k => k :: o) (zrange l u)). split; [apply in_map_iff; eauto | auto].
Qed.

(** ** Lanes *)
Definition lanes_le (a b : list time_step) : Prop :=
  length a = length b /\ forall i, (i < length b)%nat -> dt_le (nth i a Infinite) (nth i b Infinite).

Lemma lanes_le_refl a : lanes_le a a.
Proof. split; auto. intros; apply dt_le_refl. Qed.
Lemma lanes_le_trans a b c : lanes_le a b -> lanes_le b c -> lanes_le a c.
Proof.
  intros [L1 H1] [L2 H2]. split; [congruence|]. intros i Hi. eapply dt_le_trans; [apply H1 | apply H2]; lia.
Qed.

Lemma min_lanes_nth a b i : length a = length b -> (i < length a)%nat ->
  nth i (min_lanes a b) Infinite = min_dt (nth i a Infinite) (nth i b Infinite).
Proof.
  unfold min_lanes. revert b i. induction a as [|x a IH]; intros [|y b] i H Hi; cbn in *; try lia.
  destruct i; [reflexivity|]. apply IH; lia.
Qed.
Lemma min_lanes_length a b : length a = length b -> length (min_lanes a b) = length a.
Proof. intros H. unfold min_lanes, map2. rewrite map_length, combine_length. lia. Qed.

Lemma tail_nth chunk mr g st acc dts i : (i < chunk)%nat ->
  nth i (tail_lanes chunk mr g st acc dts) Infinite =
  (let mask := if (i <? mr)%nat then (i <? length dts)%nat else g i in
   if mask then min_dt (nth i acc Infinite) (if (i <? length dts)%nat then nth i dts Infinite else st i)
   else nth i acc Infinite).
Proof.
  intros Hi. unfold tail_lanes.
  set (f := fun i : nat => _). transitivity (f (nth i (seq 0 chunk) 0%nat)).
  - rewrite (nth_indep (map f (seq 0 chunk)) Infinite (f 0%nat)) by (rewrite map_length, seq_length; auto). apply map_nth.
  - rewrite seq_nth by auto. reflexivity.
Qed.

Lemma tail_length chunk mr g st acc dts : length (tail_lanes chunk mr g st acc dts) = chunk.
Proof. unfold tail_lanes. rewrite map_length, seq_length. reflexivity. Qed.

Lemma row_lanes_ok chunk mr g st : (1 <= chunk)%nat -> forall fuel acc dts, length acc = chunk -> (length dts < fuel)%nat ->
  let res := row_lanes fuel chunk mr g st acc dts in
  lanes_le res acc /\
  (forall j, (j < length dts)%nat ->
     (j < chunk * (length dts / chunk) \/ j mod chunk < mr)%nat ->
     dt_le (nth (j mod chunk) res Infinite) (nth j dts Infinite)).
Proof.
  intros Hc. induction fuel as [|fuel IH]; intros acc dts Ha Hf res; [lia|]. unfold res. cbn [row_lanes].
  destruct (Nat.leb_spec chunk (length dts)) as [Hl | Hl].
  - assert (Lf : length (firstn chunk dts) = chunk) by (apply firstn_length_le; auto).
    assert (La : length (min_lanes acc (firstn chunk dts)) = chunk) by (rewrite min_lanes_length; congruence).
    assert (Ls : length (skipn chunk dts) = (length dts - chunk)%nat) by apply skipn_length.
    destruct (IH (min_lanes acc (firstn chunk dts)) (skipn chunk dts) La ltac:(lia)) as [I1 I2]. split.
    + eapply lanes_le_trans; [exact I1|]. split; [congruence|]. intros i Hi.
      rewrite min_lanes_nth by congruence. apply min_dt_l.
    + intros j Hj Hcase. destruct (Nat.lt_ge_cases j chunk) as [Hjc | Hjc].
      * rewrite Nat.mod_small by auto. destruct I1 as [_ I1].
        eapply dt_le_trans; [apply I1; lia|]. rewrite min_lanes_nth by lia.
        eapply dt_le_trans; [apply min_dt_r|].
        replace (nth j dts Infinite) with (nth j (firstn chunk dts ++ skipn chunk dts) Infinite) by (rewrite firstn_skipn; auto).
        rewrite app_nth1 by lia. apply dt_le_refl.
      * assert (Em : (j mod chunk = (j - chunk) mod chunk)%nat).
        { replace j with ((j - chunk) + 1 * chunk)%nat at 1 by lia. apply Nat.mod_add. lia. }
        rewrite Em. replace (nth j dts Infinite) with (nth (j - chunk) (skipn chunk dts) Infinite).
        2:{ replace (nth j dts Infinite) with (nth j (firstn chunk dts ++ skipn chunk dts) Infinite) by (rewrite firstn_skipn; auto).
            rewrite app_nth2 by lia. rewrite Lf. reflexivity. }
        apply I2; [lia|]. destruct Hcase as [Hcase | Hcase].
        -- left. rewrite Ls.
           assert (D : (length dts / chunk = (length dts - chunk) / chunk + 1)%nat).
           { replace (length dts) with ((length dts - chunk) + 1 * chunk)%nat at 1 by lia. rewrite Nat.div_add by lia. lia. }
           rewrite D in Hcase. lia.
        -- right. lia.
  - split.
    + split; [rewrite tail_length; auto|]. intros i Hi. rewrite tail_nth by lia. cbv zeta.
      destruct (if (i <? mr)%nat then _ else _); [apply min_dt_l | apply dt_le_refl].
    + intros j Hj Hcase. rewrite Nat.mod_small in * by lia. rewrite Nat.div_small in Hcase by lia.
      assert (Hm : (j < mr)%nat) by lia. rewrite tail_nth by lia. cbv zeta.
      destruct (Nat.ltb_spec j mr); [|lia]. destruct (Nat.ltb_spec j (length dts)); [|lia]. apply min_dt_r.
Qed.

Lemma fold_min_lanes l acc : dt_le (fold_left min_dt l acc) acc /\ forall i, (i < length l)%nat -> dt_le (fold_left min_dt l acc) (nth i l Infinite).
Proof.
  revert acc. induction l as [|a l IH]; intros acc; cbn.
  - split; [apply dt_le_refl | intros; lia].
  - destruct (IH (min_dt acc a)) as [H1 H2]. split; [eapply dt_le_trans; [apply H1 | apply min_dt_l]|].
    intros [|i] Hi; [eapply dt_le_trans; [apply H1 | apply min_dt_r] | apply H2; lia].
Qed.

Lemma simd_covers chunk mr garbage stale n box states dir size : (1 <= chunk)%nat -> box_of_rank n box -> (0 < n)%nat ->
  forall row j, In row (stencil_rows box dir size) -> (j < length row)%nat ->
  (j < chunk * (length row / chunk) \/ j mod chunk < mr)%nat ->
  dt_le (ComputeStableDt_simd S stable chunk mr garbage stale box states dir size)
        (stable (cells_of states dir size (nth j row []))).
Proof.
  intros Hc Hb Hn row j Hr Hj Hcase. unfold ComputeStableDt_simd.
  set (F := fun acc row => row_lanes _ chunk mr (garbage row) (stale row) acc _).
  assert (G : forall rows acc, length acc = chunk -> length (fold_left F rows acc) = chunk /\ lanes_le (fold_left F rows acc) acc /\
    (In row rows -> dt_le (nth (j mod chunk) (fold_left F rows acc) Infinite) (stable (cells_of states dir size (nth j row []))))).
  { induction rows as [|r rows IH]; intros acc Ha; cbn [fold_left].
    - split; auto. split; [apply lanes_le_refl | contradiction].
    - destruct (row_lanes_ok chunk mr (garbage r) (stale r) Hc (Datatypes.S (length r)) acc
                  (map (fun face => stable (stencil S states dir size face)) r) Ha ltac:(rewrite map_length; lia)) as [R1 R2].
      fold (F acc r) in R1, R2. cbv zeta in R1, R2.
      assert (LF : length (F acc r) = chunk) by (destruct R1; congruence).
      destruct (IH (F acc r) LF) as (I1 & I2 & I3). split; [exact I1|]. split; [eapply lanes_le_trans; eauto|].
      intros [-> | Hin]; [|auto].
      eapply dt_le_trans; [destruct I2 as [_ I2]; apply I2; rewrite LF; apply Nat.mod_upper_bound; lia|].
      specialize (R2 j). rewrite map_length in R2. specialize (R2 Hj Hcase). unfold F.
      assert (E : nth j (map (fun face => stable (stencil S states dir size face)) row) Infinite
                  = stable (stencil S states dir size (nth j row []))).
      { rewrite (nth_indep _ Infinite (stable (stencil S states dir size []))) by (rewrite map_length; exact Hj).
        apply (map_nth (fun face => stable (stencil S states dir size face))). }
      rewrite E in R2.
      exact R2. }
  destruct (G (stencil_rows box dir size) (repeat Infinite chunk) (repeat_length _ _)) as (G1 & _ & G3).
  eapply dt_le_trans; [|apply G3; exact Hr].
  apply (proj2 (fold_min_lanes (fold_left F (stencil_rows box dir size) (repeat Infinite chunk)) Infinite)).
  rewrite G1. apply Nat.mod_upper_bound. lia.
Qed.

End S.

Lemma shift_length i dir k : length (Shift i dir k) = length i.
Proof. apply set_nth_length. Qed.

Lemma shift_0 i dir : Shift i dir 0 = i.
Proof. unfold Shift, nthZ. rewrite Z.add_0_r. apply set_nth_same. Qed.

Lemma shift_nth i dir k : (dir < length i)%nat -> nth dir (Shift i dir k) 0 = nth dir i 0 + k.
Proof. intros H. unfold Shift, nthZ. rewrite nth_set_same by auto. reflexivity. Qed.

Lemma in_box_spec n b i : box_of_rank n b ->
  in_box b i <-> length i = n /\ forall r, (r < n)%nat -> nth r (lower b) 0 <= nth r i 0 < nth r (upper b) 0.
Proof.
  intros [L1 L2]. unfold in_box, inside. split.
  - intros (A & B & C). split; [lia|]. intros r Hr. apply C. lia.
  - intros (A & C). split; [lia|]. split; [lia|]. intros r Hr. apply C. lia.
Qed.

(** A stencil lies in the box iff its first cell lies in the box shrunk by size-1. *)
Lemma stencil_in_spec n b dir size c : box_of_rank n b -> (dir < n)%nat -> (1 <= size)%nat -> length c = n ->
  (stencil_in b dir size c <-> in_box (Shrink b dir (0, Z.of_nat size - 1)) c).
Proof.
  intros Hb Hd Hs Hl. rewrite (shrink_spec n) by auto. cbn [fst snd]. unfold stencil_in. split.
  - intros H. split; [auto|].
    pose proof (proj1 (in_box_spec n b _ Hb) (H 0 ltac:(lia))) as [_ H0].
    pose proof (proj1 (in_box_spec n b _ Hb) (H (Z.of_nat size - 1) ltac:(lia))) as [_ H1].
    rewrite shift_0 in H0. split.
    + specialize (H0 dir Hd). specialize (H1 dir Hd). rewrite shift_nth in H1 by lia. lia.
    + intros r Hr _. apply H0, Hr.
  - intros (_ & H1 & H2) k Hk. apply (in_box_spec n b _ Hb). rewrite shift_length. split; [auto|].
    intros r Hr. destruct (Nat.eq_dec r dir) as [-> | Hne].
    + rewrite shift_nth by lia. lia.
    + unfold Shift, nthZ. rewrite nth_set_nth. destruct (Nat.eqb_spec r dir); cbn [andb]; [contradiction|]. auto.
Qed.
