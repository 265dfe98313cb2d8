(** Proofs for C153. *)
From Coq Require Import List Reals ZArith Lra Lia.
From Verif Require Import RegionModel RegionSpec.
Import ListNotations.
Local Open Scope R_scope.

Lemma in_loop lo hi i : In i (loop_range lo hi) <-> (lo <= i < hi)%Z.
Proof.
  unfold loop_range. rewrite in_map_iff. split.
  - intros (k & <- & K). apply in_seq in K. lia.
  - intros B. exists (Z.to_nat (i - lo)). split; [lia|]. apply in_seq. lia.
Qed.
Lemma CellCenter_middle a i : CellCenter a i = middle a i.
Proof. unfold CellCenter, middle. field. Qed.
Lemma middle_lt a i j : 0 < a_dx a -> (middle a i < middle a j <-> (i < j)%Z).
Proof.
  intros P. unfold middle. split; intros Q.
  - apply lt_IZR. apply Rmult_lt_reg_l with (a_dx a); lra.
  - apply IZR_lt in Q. apply Rmult_lt_compat_l with (r := a_dx a) in Q; lra.
Qed.

(** What the loop has found out about the cells it has seen *)
Definition found (a : axis) (xlo xhi : R) (seen : Z -> Prop) (b : Z * Z) : Prop :=
  (fst b = a_small a \/ seen (fst b) /\ middle a (fst b) < xlo) /\ (snd b = a_big a \/ seen (snd b) /\ xhi < middle a (snd b)) /\
  (a_small a <= fst b)%Z /\ (snd b <= a_big a)%Z /\
  (forall i, seen i -> middle a i < xlo -> (i <= fst b)%Z) /\ (forall i, seen i -> xhi < middle a i -> (snd b <= i)%Z).
Lemma loop_found a xlo xhi : forall l (seen : Z -> Prop) b, (forall i, In i l -> (a_small a <= i <= a_big a)%Z) -> found a xlo xhi seen b ->
  found a xlo xhi (fun i => seen i \/ In i l) (fold_left (box_step a xlo xhi) l b).
Proof.
  induction l as [|k l IH]; intros seen b HB F; cbn [fold_left].
  - destruct F as (F1 & F2 & F3 & F4 & F5 & F6). repeat split; try assumption.
    + destruct F1 as [F|[F F']]; [now left|right; split; [now left|exact F']].
    + destruct F2 as [F|[F F']]; [now left|right; split; [now left|exact F']].
    + intros i [Q|[]]; now apply F5.
    + intros i [Q|[]]; now apply F6.
  - assert (Fk : found a xlo xhi (fun i => seen i \/ i = k) (box_step a xlo xhi b k)).
    { assert (Bk : (a_small a <= k <= a_big a)%Z) by (apply HB; now left).
      destruct F as (F1 & F2 & F3 & F4 & F5 & F6). unfold found, box_step. rewrite CellCenter_middle. cbn [fst snd]. repeat split.
      - destruct (Rlt_dec (middle a k) xlo) as [C|C].
        + destruct (Z.max_spec (fst b) k) as [[_ ->]|[_ ->]]; [right; split; [now right|exact C]|]. destruct F1 as [F|[F F']]; [now left|right; split; [now left|exact F']].
        + destruct F1 as [F|[F F']]; [now left|right; split; [now left|exact F']].
      - destruct (Rlt_dec xhi (middle a k)) as [C|C].
        + destruct (Z.min_spec (snd b) k) as [[_ ->]|[_ ->]]; [|right; split; [now right|exact C]]. destruct F2 as [F|[F F']]; [now left|right; split; [now left|exact F']].
        + destruct F2 as [F|[F F']]; [now left|right; split; [now left|exact F']].
      - destruct (Rlt_dec (middle a k) xlo); lia.
      - destruct (Rlt_dec xhi (middle a k)); lia.
      - intros i [Q| ->] M; [specialize (F5 i Q M)|]; destruct (Rlt_dec (middle a k) xlo); try lia; contradiction.
      - intros i [Q| ->] M; [specialize (F6 i Q M)|]; destruct (Rlt_dec xhi (middle a k)); try lia; contradiction. }
    specialize (IH (fun i => seen i \/ i = k) _ (fun i Q => HB i (or_intror Q)) Fk).
    destruct IH as (F1 & F2 & F3 & F4 & F5 & F6). repeat split; try assumption.
    + destruct F1 as [F'|[F' F'']]; [now left|right; split; [|exact F'']]. destruct F' as [[Q|Q]|Q]; [now left|right; left; congruence|right; now right].
    + destruct F2 as [F'|[F' F'']]; [now left|right; split; [|exact F'']]. destruct F' as [[Q|Q]|Q]; [now left|right; left; congruence|right; now right].
    + intros i Q M. apply F5; [|exact M]. destruct Q as [Q|[Q|Q]]; [now left; left|left; right; congruence|now right].
    + intros i Q M. apply F6; [|exact M]. destruct Q as [Q|[Q|Q]]; [now left; left|left; right; congruence|now right].
Qed.
Lemma axis_found a xlo xhi : found a xlo xhi (fun i => (a_small a <= i < a_big a)%Z) (box_axis a xlo xhi).
Proof.
  assert (F0 : found a xlo xhi (fun _ => False) (a_small a, a_big a)).
  { unfold found. cbn. repeat split; try (now left); try lia; intros; contradiction. }
  apply (loop_found a xlo xhi (loop_range (a_small a) (a_big a))) in F0; [|intros i Q; apply in_loop in Q; lia].
  unfold box_axis. destruct F0 as (F1 & F2 & F3 & F4 & F5 & F6). repeat split; try assumption.
  - destruct F1 as [F|[[[]|F] F']]; [now left|right; split; [now apply in_loop|exact F']].
  - destruct F2 as [F|[[[]|F] F']]; [now left|right; split; [now apply in_loop|exact F']].
  - intros i Q. apply F5. right. now apply in_loop.
  - intros i Q. apply F6. right. now apply in_loop.
Qed.

(** The bounds of one axis *)
Lemma axis_bounds a xlo xhi : proper a -> xlo <= xhi -> let b := box_axis a xlo xhi in
  (a_small a <= fst b)%Z /\ (fst b <= snd b)%Z /\ (snd b <= a_big a)%Z /\
  (fst b <> a_small a -> middle a (fst b) < xlo) /\ (snd b <> a_big a -> xhi < middle a (snd b)) /\
  (forall i, (fst b < i < snd b)%Z -> xlo <= middle a i <= xhi).
Proof.
  intros [P S0] X. cbv zeta. destruct (axis_found a xlo xhi) as (F1 & F2 & F3 & F4 & F5 & F6). set (b := box_axis a xlo xhi) in *.
  assert (M1 : fst b <> a_small a -> middle a (fst b) < xlo) by (intros; destruct F1 as [|[_ F]]; [contradiction|exact F]).
  assert (M2 : snd b <> a_big a -> xhi < middle a (snd b)) by (intros; destruct F2 as [|[_ F]]; [contradiction|exact F]).
  assert (Up : (fst b <= a_big a)%Z) by (destruct F1 as [F|[F _]]; lia). assert (Lo : (a_small a <= snd b)%Z) by (destruct F2 as [F|[F _]]; lia).
  repeat split; try assumption.
  - destruct (Z.eq_dec (fst b) (a_small a)) as [E|E]; [lia|]. destruct (Z.eq_dec (snd b) (a_big a)) as [E'|E']; [lia|].
    specialize (M1 E). specialize (M2 E'). assert (middle a (fst b) < middle a (snd b)) by lra. apply middle_lt in H; [lia|exact P].
  - destruct (Rle_dec xlo (middle a i)); [assumption|]. exfalso. assert (i <= fst b)%Z; [apply F5; [lia|lra]|lia].
  - destruct (Rle_dec (middle a i) xhi); [assumption|]. exfalso. assert (snd b <= i)%Z; [apply F6; [lia|lra]|lia].
Qed.

(** Every point of the domain is in a cell *)
Lemma cell_exists a x : proper a -> a_offset a + a_dx a * IZR (a_small a) <= x <= a_offset a + a_dx a * (IZR (a_big a) + 1) ->
  exists i, (a_small a <= i <= a_big a)%Z /\ in_cell a i x.
Proof.
  intros [P S0] [L U].
  assert (Hn : forall n : nat, forall s, (Z.of_nat n = a_big a - s)%Z -> a_offset a + a_dx a * IZR s <= x -> exists i, (s <= i <= a_big a)%Z /\ in_cell a i x).
  { induction n as [|n IH]; intros s E Ls.
    - assert (s = a_big a) as -> by lia. exists (a_big a). split; [lia|]. split; assumption.
    - destruct (Rle_dec x (a_offset a + a_dx a * (IZR s + 1))) as [C|C].
      + exists s. split; [lia|]. split; assumption.
      + destruct (IH (s + 1)%Z) as (i & B & I); [lia|rewrite plus_IZR; lra|]. exists i. split; [lia|exact I]. }
  apply (Hn (Z.to_nat (a_big a - a_small a)) (a_small a)); [lia|exact L].
Qed.
Lemma cell_in_domain a i x : 0 < a_dx a -> (a_small a <= i <= a_big a)%Z -> in_cell a i x -> a_offset a + a_dx a * IZR (a_small a) <= x <= a_offset a + a_dx a * (IZR (a_big a) + 1).
Proof.
  intros P [B1 B2] [C1 C2]. apply IZR_le in B1. apply IZR_le in B2. apply Rmult_le_compat_l with (r := a_dx a) in B1; [|lra]. apply Rmult_le_compat_l with (r := a_dx a) in B2; [|lra]. lra.
Qed.
Lemma axis_covers a xlo xhi x i : proper a -> xlo <= xhi -> xlo <= x <= xhi -> (a_small a <= i <= a_big a)%Z -> in_cell a i x ->
  (fst (box_axis a xlo xhi) <= i <= snd (box_axis a xlo xhi))%Z.
Proof.
  intros Pa X Hx B [C1 C2]. destruct (axis_bounds a xlo xhi Pa X) as (B1 & B2 & B3 & B4 & B5 & _). set (b := box_axis a xlo xhi) in *. destruct Pa as [P S0]. split.
  - destruct (Z_le_gt_dec (fst b) i) as [|G]; [assumption|]. exfalso. assert (N : fst b <> a_small a) by lia. specialize (B4 N).
    assert (Q : (i + 1 <= fst b)%Z) by lia. apply IZR_le in Q. rewrite plus_IZR in Q. apply Rmult_le_compat_l with (r := a_dx a) in Q; [|lra]. unfold middle in B4. lra.
  - destruct (Z_le_gt_dec i (snd b)) as [|G]; [assumption|]. exfalso. assert (N : snd b <> a_big a) by lia. specialize (B5 N).
    assert (Q : (snd b + 1 <= i)%Z) by lia. apply IZR_le in Q. rewrite plus_IZR in Q. apply Rmult_le_compat_l with (r := a_dx a) in Q; [|lra]. unfold middle in B5. lra.
Qed.

(** ** Several dimensions *)
Lemma box_length : forall g r, length r = length g -> length (BoxWhichContains g r) = length g.
Proof. induction g as [|a g IH]; intros [|[xlo xhi] r] L; cbn in *; try lia. now rewrite IH by lia. Qed.
Lemma box_nth : forall g r d a l, nth_error g d = Some a -> nth_error r d = Some l -> nth_error (BoxWhichContains g r) d = Some (box_axis a (fst l) (snd l)).
Proof.
  induction g as [|a0 g IH]; intros [|[xlo xhi] r] [|d] a l Ga Rl; cbn in *; try discriminate.
  - injection Ga as <-. injection Rl as <-. reflexivity.
  - now apply IH.
Qed.
Lemma nth_some {A} (l : list A) d : (d < length l)%nat -> exists x, nth_error l d = Some x.
Proof. intros L. destruct (nth_error l d) as [x|] eqn:E; [now exists x|]. apply nth_error_None in E. lia. Qed.
Lemma nth_len {A} (l : list A) d x : nth_error l d = Some x -> (d < length l)%nat.
Proof. intros E. apply nth_error_Some. congruence. Qed.
Lemma coarse_nth : forall ns cs d n c, nth_error ns d = Some n -> nth_error cs d = Some c -> nth_error (GetCoarseGeometry ns cs) d = Some (coarse_axis n c).
Proof.
  induction ns as [|n0 ns IH]; intros [|c0 cs] [|d] n c E1 E2; cbn in *; try discriminate.
  - congruence.
  - now apply IH.
Qed.
Lemma coarse_length : forall ns cs, length cs = length ns -> length (GetCoarseGeometry ns cs) = length ns.
Proof. induction ns as [|n ns IH]; intros [|c cs] L; cbn in *; try lia. now rewrite IH by lia. Qed.
Lemma around_nth : forall x rx d a r, nth_error x d = Some a -> nth_error rx d = Some r -> nth_error (DomainAroundCenter x rx) d = Some (a - r, a + r).
Proof.
  induction x as [|a0 x IH]; intros [|r0 rx] [|d] a r E1 E2; cbn in *; try discriminate.
  - congruence.
  - now apply IH.
Qed.
Lemma around_length : forall x rx, length rx = length x -> length (DomainAroundCenter x rx) = length x.
Proof. induction x as [|n ns IH]; intros [|c cs] L; cbn in *; try lia. now rewrite IH by lia. Qed.
(** Every point in the domain has a cell *)
Lemma choose_cells : forall g x, length x = length g -> (forall d a, nth_error g d = Some a -> proper a) ->
  (forall d a y, nth_error g d = Some a -> nth_error x d = Some y -> a_offset a + a_dx a * IZR (a_small a) <= y <= a_offset a + a_dx a * (IZR (a_big a) + 1)) ->
  exists idx, cell_contains g idx x /\ in_box (domain g) idx.
Proof.
  induction g as [|a g IH]; intros [|y x] L HP HD; cbn in L; try lia.
  - exists []. split; [split; [reflexivity|split; [reflexivity|]]|split; [reflexivity|]]; intros [|d]; discriminate.
  - destruct (IH x ltac:(lia)) as (idx & (C1 & C2 & C3) & D1 & D2); [intros d; apply (HP (S d))|intros d; apply (HD (S d))|].
    destruct (cell_exists a y (HP O a eq_refl) (HD O a y eq_refl eq_refl)) as (i & B & I).
    exists (i :: idx). split; [split; [cbn; lia|split; [cbn; lia|]]|split; [cbn; unfold domain in *; rewrite map_length in *; lia|]].
    + intros [|d] a' i' y'; cbn; [congruence|apply C3].
    + intros [|d] l' i'; cbn; [|apply D2]. intros E1 E2. injection E1 as <-. injection E2 as <-. exact B.
Qed.
