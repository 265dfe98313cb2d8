(** Lemmas for C165. *)
From Coq Require Import List Reals Arith Lia Bool.
From Verif Require Import SlabModel SlabSpec.
Import ListNotations.
Local Open Scope nat_scope.

Lemma addr_inj : forall n m k c l k' c' l', k < n -> k' < n -> c < m -> c' < m -> left3 n m k c l = left3 n m k' c' l' -> k = k' /\ c = c' /\ l = l'.
Proof.
  assert (U : forall n a q a' q', a < n -> a' < n -> a + n * q = a' + n * q' -> a = a' /\ q = q').
  { intros n a q a' q' A A' E. assert (q = q').
    { rewrite (Nat.div_unique (a + n * q) n q a) by lia. apply eq_sym, (Nat.div_unique (a + n * q) n q' a'); lia. } subst. lia. }
  intros n m k c l k' c' l' K K' C C' E. unfold left3 in E. destruct (U n k (c + m * l) k' (c' + m * l') K K' E) as [-> E2].
  destruct (U m c l c' l' C C' E2) as [-> ->]. auto.
Qed.

Lemma assign_same : forall b a v, assign b a v a = v.
Proof. intros. unfold assign. now rewrite Nat.eqb_refl. Qed.
Lemma assign_other : forall b a v j, j <> a -> assign b a v j = b j.
Proof. intros b a v j H. unfold assign. destruct (Nat.eqb_spec j a); [contradiction|reflexivity]. Qed.

Lemma gathered : forall n m hits p f level, (forall k c l v, In (k, c, l, v) hits -> k < n /\ c < m) -> p < n -> f < m ->
  GatherLevels n m hits (left3 n m p f level) = recorded hits p f level.
Proof.
  intros n m hits p f level B P F. unfold GatherLevels, recorded.
  enough (G : forall (b : buffer) x, b (left3 n m p f level) = x ->
    fold_left (fun b h => let '(k, comp, level, v) := h in assign b (left3 n m k comp level) v) hits b (left3 n m p f level) =
    fold_left (fun x h => let '(k, c, l, v) := h in if (k =? p) && (c =? f) && (l =? level) then v else x) hits x) by (now apply G).
  induction hits as [|[[[k c] l] v] hits IH]; intros b x E; cbn [fold_left]; [exact E|].
  apply IH; [intros; apply (B k0 c0 l0 v0); now right|]. destruct (B k c l v (or_introl eq_refl)) as [K C].
  destruct (Nat.eqb_spec k p) as [-> |NK]; cbn [andb].
  - destruct (Nat.eqb_spec c f) as [-> |NC]; cbn [andb].
    + destruct (Nat.eqb_spec l level) as [-> |NL]; [apply assign_same|]. rewrite assign_other; [exact E|]. intros A. apply addr_inj in A; intuition congruence.
    + rewrite assign_other; [exact E|]. intros A. apply addr_inj in A; intuition congruence.
  - rewrite assign_other; [exact E|]. intros A. apply addr_inj in A; intuition congruence.
Qed.

Lemma pair_dec : forall x y : nat * nat, {x = y} + {x <> y}.
Proof. decide equality; apply Nat.eq_dec. Qed.

Lemma fill_level : forall n m level cells (b : buffer) p f l, 0 < level -> (forall c i, In (c, i) cells -> c < m /\ i < n) -> p < n -> f < m ->
  FillLevel n m level cells b (left3 n m p f l) =
  if (l =? level) && (if in_dec pair_dec (f, p) cells then true else false) then
    (if Req_EM_T (b (left3 n m p f level)) 0 then b (left3 n m p f (level - 1)) else b (left3 n m p f level))
  else b (left3 n m p f l).
Proof.
  intros n m level cells b p f l L. revert b. unfold FillLevel.
  induction cells as [|[c i] cells IH]; intros b B P F.
  - cbn. now rewrite andb_false_r.
  - cbn [fold_left]. rewrite IH; [|intros; apply B; now right|exact P|exact F]. clear IH. cbv beta iota. destruct (B c i (or_introl eq_refl)) as [C I].
    match goal with |- context [Req_EM_T (?B (left3 n m p f level)) 0] => set (b1 := B) end.
    assert (O : forall l', (c, i, level) <> (f, p, l') -> b1 (left3 n m p f l') = b (left3 n m p f l')).
    { intros l' N. unfold b1. destruct (Req_EM_T _ 0); [|reflexivity]. apply assign_other. intros A. apply addr_inj in A; [|assumption..]. apply N. intuition congruence. }
    assert (V : (c, i) = (f, p) -> b1 (left3 n m p f level) = if Req_EM_T (b (left3 n m p f level)) 0 then b (left3 n m p f (level - 1)) else b (left3 n m p f level)).
    { intros [= -> ->]. unfold b1. destruct (Req_EM_T (b (left3 n m p f level)) 0); [apply assign_same|reflexivity]. }
    assert (O1 : b1 (left3 n m p f (level - 1)) = b (left3 n m p f (level - 1))) by (apply O; intros [= _ _ E]; lia). clearbody b1.
    destruct (Nat.eqb_spec l level) as [-> |N]; cbn [andb]; [|apply O; congruence].
    destruct (in_dec _ (f, p) cells) as [J|J]; destruct (in_dec _ (f, p) ((c, i) :: cells)) as [J'|J'].
    + rewrite O1. assert (D : (c, i) = (f, p) \/ (c, i) <> (f, p)) by (destruct (Nat.eq_dec c f), (Nat.eq_dec i p); [left; congruence|right; congruence..]).
      destruct D as [D|D]; [rewrite (V D)|rewrite O by congruence; reflexivity].
      destruct (Req_EM_T (b (left3 n m p f level)) 0) as [Z|Z]; [destruct (Req_EM_T _ 0); reflexivity|destruct (Req_EM_T _ 0); [contradiction|reflexivity]].
    + exfalso. apply J'. now right.
    + destruct J' as [J'|J']; [now apply V|contradiction].
    + apply O. intros [= -> ->]. apply J'. now left.
Qed.

Lemma fill_levels : forall n m hits p f steps, (forall k c l v, In (k, c, l, v) hits -> k < n /\ c < m) -> p < n -> f < m ->
  let b := fold_left (fun b level => FillLevel n m level (list_prod (seq 0 m) (seq 0 n)) b) (seq 1 steps) (GatherLevels n m hits) in
  (forall l, l <= steps -> b (left3 n m p f l) = finest hits p f l) /\ (forall l, steps < l -> b (left3 n m p f l) = recorded hits p f l).
Proof.
  intros n m hits p f steps B P F. induction steps as [|s IH]; cbn zeta.
  - cbn [seq fold_left]. split; intros l L; [replace l with 0 by lia; cbn [finest]|]; now apply gathered.
  - rewrite seq_S, fold_left_app. cbn [fold_left]. destruct IH as [I1 I2]. set (b := fold_left _ (seq 1 s) _) in *.
    assert (W : forall l, FillLevel n m (1 + s) (list_prod (seq 0 m) (seq 0 n)) b (left3 n m p f l) =
      if l =? 1 + s then (if Req_EM_T (b (left3 n m p f (1 + s))) 0 then b (left3 n m p f s) else b (left3 n m p f (1 + s))) else b (left3 n m p f l)).
    { intros l. rewrite fill_level; [|lia|intros c i I; apply in_prod_iff in I as [X Y]; apply in_seq in X; apply in_seq in Y; lia|exact P|exact F].
      destruct (in_dec _ (f, p) _) as [J|J]; [|exfalso; apply J; apply in_prod; apply in_seq; lia]. rewrite andb_true_r. replace (1 + s - 1) with s by lia. reflexivity. }
    split; intros l L; rewrite W.
    + destruct (Nat.eqb_spec l (1 + s)) as [-> |N]; [|apply I1; lia]. rewrite I2, I1 by lia. reflexivity.
    + destruct (Nat.eqb_spec l (1 + s)); [lia|]. apply I2. lia.
Qed.

Lemma coordinates_inner : forall n rank (x : nat -> R) i b d p, i < n -> p < n ->
  fold_left (fun b d => assign b (right2 n d i) (x d)) (seq 0 rank) b (right2 n d p) = if (d <? rank) && (p =? i) then x d else b (right2 n d p).
Proof.
  intros n rank x i b d p I P. induction rank as [|r IH]; [reflexivity|]. rewrite seq_S, fold_left_app. cbn [fold_left Nat.add].
  assert (Inj : right2 n d p = right2 n r i <-> d = r /\ p = i).
  { split; [|intros [-> ->]; reflexivity]. unfold right2. intros E. assert (d = r).
    { rewrite (Nat.div_unique (d * n + p) n d p) by lia. apply eq_sym, (Nat.div_unique (d * n + p) n r i); lia. } subst. lia. }
  destruct (Nat.eq_dec d r) as [-> |D].
  - destruct (Nat.ltb_spec r (S r)); [|lia]. destruct (Nat.eqb_spec p i) as [-> |N]; cbn [andb].
    + apply assign_same.
    + rewrite assign_other by (rewrite Inj; tauto). rewrite IH. destruct (Nat.ltb_spec r r); [lia|reflexivity].
  - rewrite assign_other by (rewrite Inj; tauto). rewrite IH. destruct (Nat.ltb_spec d r); destruct (Nat.ltb_spec d (S r)); try lia; reflexivity.
Qed.

Lemma coordinates : forall rank n xs start b d p, start + length xs <= n -> d < rank -> p < n ->
  fold_left (fun b ix => fold_left (fun b d => assign b (right2 n d (fst ix)) (snd ix d)) (seq 0 rank) b) (combine (seq start (length xs)) xs) b (right2 n d p) =
  if (start <=? p) then match nth_error xs (p - start) with Some x => x d | None => b (right2 n d p) end else b (right2 n d p).
Proof.
  intros rank n xs. induction xs as [|x xs IH]; intros start b d p L D P; cbn [length seq combine fold_left fst snd].
  - destruct (start <=? p); [|reflexivity]. now destruct (p - start).
  - cbn [length] in L. rewrite IH by (assumption || lia). rewrite coordinates_inner by (assumption || lia). destruct (Nat.ltb_spec d rank); [|lia]. cbn [andb].
    destruct (Nat.leb_spec start p); destruct (Nat.leb_spec (S start) p); destruct (Nat.eqb_spec p start); try lia.
    + replace (p - start) with (S (p - S start)) by lia. reflexivity.
    + subst. rewrite Nat.sub_diag. reflexivity.
    + reflexivity.
Qed.
