(** Proofs about the arrays written by the HDF5 output and about probes. *)
From Coq Require Import Reals ZArith Bool List Lia Lra Permutation.
Import ListNotations.
From Verif Require Import Hdf5Model Hdf5Spec.
Local Open Scope R_scope.

Lemma cell_eqb_true : forall a b, cell_eqb a b = true <-> a = b.
Proof.
  intros [a1 a2] [b1 b2]. unfold cell_eqb. cbn. rewrite andb_true_iff, !Z.eqb_eq.
  split; [intros [-> ->]; reflexivity | intros E; injection E; auto].
Qed.

Lemma mem_true : forall i l, existsb (cell_eqb i) l = true <-> In i l.
Proof.
  intros i l. rewrite existsb_exists. split.
  - intros [x [Hx E]]. apply cell_eqb_true in E. subst. exact Hx.
  - intros H. exists i. split; [exact H | apply cell_eqb_true; reflexivity].
Qed.

Lemma mem_false : forall i l, ~ In i l -> existsb (cell_eqb i) l = false.
Proof. intros i l H. destruct (existsb (cell_eqb i) l) eqn:E; [apply mem_true in E; contradiction | reflexivity]. Qed.

Lemma in_box_true : forall b i, in_box b i = true <-> inside b i.
Proof. intros b i. unfold in_box, inside. rewrite !andb_true_iff, !Z.leb_le. lia. Qed.

Lemma cell_in_dec : forall (i : cell) l, {In i l} + {~ In i l}.
Proof.
  intros i l. destruct (existsb (cell_eqb i) l) eqn:E; [left | right].
  - apply mem_true; exact E.
  - intros H. apply mem_true in H. congruence.
Qed.

(** ** Copying and adding *)

Lemma disjoint_tail : forall p ps, disjoint_patches (p :: ps) -> disjoint_patches ps.
Proof.
  intros p ps H before q between r after i E. apply (H (p :: before) q between r after i).
  rewrite E. reflexivity.
Qed.

Lemma disjoint_head : forall p ps q i, disjoint_patches (p :: ps) -> In q ps ->
  In i (pcells p) -> ~ In i (pcells q).
Proof.
  intros p ps q i H Hq. apply in_split in Hq. destruct Hq as [l1 [l2 E]].
  apply (H [] p l1 q l2 i). rewrite E. reflexivity.
Qed.

Lemma disjoint_app : forall l1 l2, disjoint_patches (l1 ++ l2) ->
  disjoint_patches l1 /\ disjoint_patches l2 /\
  (forall p q i, In p l1 -> In q l2 -> In i (pcells p) -> ~ In i (pcells q)).
Proof.
  induction l1 as [|p l1 IH]; intros l2 H.
  - split; [|split; [exact H|]].
    + intros before p between q after i E. destruct before; discriminate.
    + intros p q i [].
  - cbn [app] in H. destruct (IH l2 (disjoint_tail _ _ H)) as [H1 [H2 H3]].
    split; [|split; [exact H2|]].
    + intros before a between q after i E Ha. destruct before as [|b before].
      * cbn in E. injection E as E1 E2. subst a.
        apply (disjoint_head p (l1 ++ l2) q i H); [|exact Ha].
        apply in_or_app. left. rewrite E2. apply in_or_app. right. left. reflexivity.
      * cbn in E. injection E as E1 E2. apply (H1 before a between q after i E2 Ha).
    + intros a q i [E|Ha] Hq Hi.
      * subst a. apply (disjoint_head p (l1 ++ l2) q i H); [apply in_or_app; right; exact Hq | exact Hi].
      * apply (H3 a q i Ha Hq Hi).
Qed.

Lemma copy_none : forall b ps f i c, (forall p, In p ps -> ~ In i (pcells p)) ->
  fold_left (copy_patch b) ps f i c = f i c.
Proof.
  intros b. induction ps as [|p ps IH]; intros f i c H; cbn [fold_left]; [reflexivity|].
  rewrite IH; [|intros q Hq; apply H; right; exact Hq].
  unfold copy_patch. rewrite (mem_false i (pcells p) (H p (or_introl eq_refl))), andb_false_r. reflexivity.
Qed.

Lemma copy_one : forall b ps f i c p, disjoint_patches ps -> In p ps -> In i (pcells p) -> inside b i ->
  fold_left (copy_patch b) ps f i c = pdata p i c.
Proof.
  intros b. induction ps as [|q ps IH]; intros f i c p Hd Hp Hi Hb; [destruct Hp|].
  cbn [fold_left]. destruct Hp as [->|Hp].
  - rewrite copy_none.
    + unfold copy_patch. apply in_box_true in Hb. apply mem_true in Hi. rewrite Hb, Hi. reflexivity.
    + intros q Hq. apply (disjoint_head p ps q i Hd Hq Hi).
  - apply IH; auto. apply (disjoint_tail q). exact Hd.
Qed.

Lemma reduce_none : forall b rs i c, (forall p, In p (concat rs) -> ~ In i (pcells p)) ->
  reduce (map (local_fab b) rs) i c = 0.
Proof.
  intros b. unfold reduce. induction rs as [|ps rs IH]; intros i c H; cbn [map fold_right]; [reflexivity|].
  rewrite IH.
  - unfold local_fab. rewrite copy_none; [unfold zero_fab; lra|].
    intros p Hp. apply H. cbn. apply in_or_app. left. exact Hp.
  - intros p Hp. apply H. cbn. apply in_or_app. right. exact Hp.
Qed.

Lemma reduce_one : forall b rs i c p, disjoint_patches (concat rs) -> In p (concat rs) ->
  In i (pcells p) -> inside b i -> reduce (map (local_fab b) rs) i c = pdata p i c.
Proof.
  intros b. induction rs as [|ps rs IH]; intros i c p Hd Hp Hi Hb; [destruct Hp|].
  cbn in Hd, Hp. destruct (disjoint_app ps (concat rs) Hd) as [D1 [D2 D3]].
  change (local_fab b ps i c + reduce (map (local_fab b) rs) i c = pdata p i c).
  apply in_app_or in Hp. destruct Hp as [Hp|Hp].
  - rewrite reduce_none.
    + unfold local_fab. rewrite (copy_one b ps zero_fab i c p D1 Hp Hi Hb). lra.
    + intros q Hq. apply (D3 p q i Hp Hq Hi).
  - rewrite (IH i c p D2 Hp Hi Hb). unfold local_fab. rewrite copy_none; [unfold zero_fab; lra|].
    intros q Hq Hqi. apply (D3 q p i Hq Hp Hqi Hi).
Qed.

(** ** Filling from the coarser level *)

Lemma fill_fold : forall b r coarse L f i c, inside b i -> ~ In 0%nat L ->
  fold_left (fill_component b r coarse) L f i c =
  if in_dec PeanoNat.Nat.eq_dec c L then
    (if Req_EM_T (f i 0%nat) 0 then coarse (coarsen r i) c else f i c)
  else f i c.
Proof.
  intros b r coarse. induction L as [|k L IH]; intros f i c Hb H0; cbn [fold_left].
  - destruct (in_dec PeanoNat.Nat.eq_dec c []) as [[]|_]; reflexivity.
  - assert (Hk : (k =? 0)%nat = false) by (apply PeanoNat.Nat.eqb_neq; intros ->; apply H0; left; reflexivity).
    assert (HL : ~ In 0%nat L) by (intros H; apply H0; right; exact H).
    rewrite IH by assumption.
    apply in_box_true in Hb.
    assert (E0 : fill_component b r coarse f k i 0%nat = f i 0%nat).
    { unfold fill_component. rewrite PeanoNat.Nat.eqb_sym, Hk. reflexivity. }
    rewrite E0.
    assert (Ec : fill_component b r coarse f k i c =
                 if (c =? k)%nat then (if Req_EM_T (f i 0%nat) 0 then coarse (coarsen r i) k else f i c) else f i c).
    { unfold fill_component. rewrite Hb, andb_true_r. reflexivity. }
    rewrite Ec.
    destruct (PeanoNat.Nat.eqb_spec c k) as [->|Hc].
    + destruct (in_dec PeanoNat.Nat.eq_dec k (k :: L)) as [_|H]; [|exfalso; apply H; left; reflexivity].
      destruct (in_dec PeanoNat.Nat.eq_dec k L); destruct (Req_EM_T (f i 0%nat) 0); reflexivity.
    + destruct (in_dec PeanoNat.Nat.eq_dec c L) as [H|H];
        destruct (in_dec PeanoNat.Nat.eq_dec c (k :: L)) as [H'|H']; try reflexivity.
      * exfalso. apply H'. right. exact H.
      * destruct H' as [->|H']; [congruence | contradiction].
Qed.

Lemma fill_value : forall ncomp b r coarse f i c, inside b i -> (c < ncomp)%nat ->
  fill ncomp b r coarse f i c = if Req_EM_T (f i 0%nat) 0 then coarse (coarsen r i) c else f i c.
Proof.
  intros ncomp b r coarse f i c Hb Hc. unfold fill. rewrite fold_left_app. cbn [fold_left].
  assert (H0 : ~ In 0%nat (seq 1 (ncomp - 1))) by (intros H; apply in_seq in H; lia).
  unfold fill_component at 1.
  rewrite !(fill_fold b r coarse (seq 1 (ncomp - 1)) f i _ Hb H0).
  pose proof (proj2 (in_box_true b i) Hb) as Hb'. rewrite Hb', andb_true_r.
  destruct (in_dec PeanoNat.Nat.eq_dec 0%nat (seq 1 (ncomp - 1))) as [H|_]; [contradiction|].
  destruct (PeanoNat.Nat.eqb_spec c 0) as [->|Hn].
  - destruct (Req_EM_T (f i 0%nat) 0); [reflexivity|].
    destruct (in_dec PeanoNat.Nat.eq_dec 0%nat (seq 1 (ncomp - 1))) as [H|_]; [contradiction | reflexivity].
  - destruct (in_dec PeanoNat.Nat.eq_dec c (seq 1 (ncomp - 1))) as [_|H]; [reflexivity|].
    exfalso. apply H. apply in_seq. lia.
Qed.

Theorem gathered_finest : forall ncomp ls i c v,
  nested ls ->
  (forall b l, In (b, l) ls -> disjoint_patches (patches l)) ->
  (forall b l p j, In (b, l) ls -> covers l p j -> pdata p j 0%nat <> 0) ->
  (c < ncomp)%nat ->
  match ls with [] => False | (b, _) :: _ => inside b i end ->
  finest (map snd ls) i c v ->
  gathered ncomp ls i c = v.
Proof.
  intros ncomp ls. induction ls as [|[b l] ls IH]; intros i c v Hn Hd Hz Hc Hb Hf; [destruct Hb|].
  cbn [map snd] in Hf. inversion Hf as [l' ls' p i' c' Hcov|l' ls' i' c' v' Hnot Hbelow]; subst.
  - destruct Hcov as [Hp Hi].
    assert (E : forall k, reduce (map (local_fab b) (ranks l)) i k = pdata p i k).
    { intros k. apply reduce_one; auto. apply (Hd b l). left. reflexivity. }
    cbn [gathered]. destruct ls as [|x ls]; [apply E|].
    rewrite fill_value by assumption. rewrite !E.
    destruct (Req_EM_T (pdata p i 0%nat) 0) as [H0|_]; [|reflexivity].
    exfalso. apply (Hz b l p i); [left; reflexivity | split; assumption | exact H0].
  - assert (E : forall k, reduce (map (local_fab b) (ranks l)) i k = 0).
    { intros k. apply reduce_none. intros p Hp Hi. apply (Hnot p). split; assumption. }
    destruct ls as [|[b' l'] ls]; [inversion Hbelow|].
    cbn [gathered]. rewrite fill_value by assumption. rewrite !E.
    destruct (Req_EM_T 0 0) as [_|H0]; [|congruence].
    destruct Hn as [Hn1 Hn2]. apply IH; auto.
    + intros b0 l0 H0. apply (Hd b0 l0). right. exact H0.
    + intros b0 l0 p j H0. apply (Hz b0 l0 p j). right. exact H0.
    + apply Hn1. exact Hb.
Qed.

Lemma finest_exists : forall ls i c,
  (exists l, nth_error ls (length ls - 1) = Some l /\
    forall j, exists p, covers l p j) -> exists v, finest ls i c v.
Proof.
  induction ls as [|l ls IH]; intros i c [l0 [H1 H2]]; [destruct (H2 i) as [p Hp]; discriminate H1|].
  destruct ls as [|l' ls].
  - cbn in H1. injection H1 as ->. destruct (H2 i) as [p Hp]. exists (pdata p i c). apply finest_here. exact Hp.
  - destruct (existsb (fun p => existsb (cell_eqb i) (pcells p)) (patches l)) eqn:E.
    + apply existsb_exists in E. destruct E as [p [Hp Hi]]. apply mem_true in Hi.
      exists (pdata p i c). apply finest_here. split; assumption.
    + destruct (IH (fst i / fst (ratio l), snd i / snd (ratio l))%Z c) as [v Hv].
      * exists l0. split; [|exact H2]. rewrite <- H1. cbn [length].
        replace (S (S (length ls)) - 1)%nat with (S (length ls)) by lia.
        replace (S (length ls) - 1)%nat with (length ls) by lia. reflexivity.
      * exists v. apply finest_below; [|exact Hv]. intros p [Hp Hi].
        assert (H : existsb (fun p => existsb (cell_eqb i) (pcells p)) (patches l) = true).
        { apply existsb_exists. exists p. split; [exact Hp | apply mem_true; exact Hi]. }
        congruence.
Qed.

(** ** Boxes of restricted outputs *)

Lemma coarsen_inside : forall r b i, positive_ratio r -> inside b i ->
  inside (coarsen_box r b) (fst i / fst r, snd i / snd r)%Z.
Proof.
  intros r b i [R1 R2] [H1 H2]. unfold inside, coarsen_box, coarsen. cbn.
  repeat split; apply Z.div_le_mono; lia.
Qed.

Lemma restricted_nested : forall ls b, (forall l, In l ls -> positive_ratio (ratio l)) ->
  nested (restricted_boxes b ls).
Proof.
  induction ls as [|l ls IH]; intros b H; cbn; [exact I|].
  destruct ls as [|l' ls]; cbn; [exact I|]. split.
  - intros i Hi. apply coarsen_inside; [apply H; left; reflexivity | exact Hi].
  - apply (IH (coarsen_box (ratio l) b)). intros l0 H0. apply H. right. exact H0.
Qed.

Lemma restricted_levels : forall ls b, map snd (restricted_boxes b ls) = ls.
Proof. induction ls as [|l ls IH]; intros b; cbn; [reflexivity | rewrite IH; reflexivity]. Qed.

Lemma restricted_in : forall ls b b' l, In (b', l) (restricted_boxes b ls) -> In l ls.
Proof.
  intros ls b b' l H. rewrite <- (restricted_levels ls b). apply (in_map snd) in H. exact H.
Qed.

(** ** Independence of the distribution *)

Lemma disjoint_perm : forall ps qs, Permutation ps qs -> disjoint_patches ps -> disjoint_patches qs.
Proof.
  assert (A : forall ps qs, Permutation ps qs ->
     (forall i, (length (filter (fun p => existsb (cell_eqb i) (pcells p)) ps) <= 1)%nat) ->
     (forall i, (length (filter (fun p => existsb (cell_eqb i) (pcells p)) qs) <= 1)%nat)).
  { intros ps qs HP H i. specialize (H i).
    assert (Permutation (filter (fun p => existsb (cell_eqb i) (pcells p)) ps)
                        (filter (fun p => existsb (cell_eqb i) (pcells p)) qs)) as HF.
    { clear H. induction HP; cbn.
      - constructor.
      - destruct (existsb (cell_eqb i) (pcells x)); [constructor|]; assumption.
      - destruct (existsb (cell_eqb i) (pcells x)), (existsb (cell_eqb i) (pcells y));
          try apply perm_swap; apply Permutation_refl.
      - eapply Permutation_trans; eassumption. }
    rewrite <- (Permutation_length HF). exact H. }
  assert (B : forall ps, disjoint_patches ps <->
     forall i, (length (filter (fun p => existsb (cell_eqb i) (pcells p)) ps) <= 1)%nat).
  { induction ps as [|p ps IH].
    - split; [intros _ i; cbn; lia|]. intros _ before p between q after i E. destruct before; discriminate.
    - split.
      + intros H i. cbn. destruct (existsb (cell_eqb i) (pcells p)) eqn:E.
        * apply mem_true in E.
          assert (F : filter (fun p => existsb (cell_eqb i) (pcells p)) ps = []).
          { destruct (filter (fun p => existsb (cell_eqb i) (pcells p)) ps) as [|q l] eqn:F; [reflexivity|].
            assert (Hq : In q (filter (fun p => existsb (cell_eqb i) (pcells p)) ps)) by (rewrite F; left; reflexivity).
            apply filter_In in Hq. destruct Hq as [Hq Hi]. apply mem_true in Hi.
            exfalso. apply (disjoint_head p ps q i H Hq E Hi). }
          rewrite F. cbn. lia.
        * apply IH. apply (disjoint_tail p). exact H.
      + intros H before a between q after i E Ha Hq. destruct before as [|b before].
        * cbn in E. injection E as E1 E2. subst a. specialize (H i). cbn in H.
          rewrite (proj2 (mem_true i (pcells p)) Ha) in H.
          assert (Hin : In q (filter (fun p => existsb (cell_eqb i) (pcells p)) ps)).
          { apply filter_In. split; [rewrite E2; apply in_or_app; right; left; reflexivity | apply mem_true; exact Hq]. }
          destruct (filter (fun p => existsb (cell_eqb i) (pcells p)) ps); [destruct Hin | cbn in H; lia].
        * cbn in E. injection E as E1 E2.
          assert (D : disjoint_patches ps).
          { apply IH. intros j. specialize (H j). cbn in H. destruct (existsb (cell_eqb j) (pcells p)); cbn in H; lia. }
          apply (D before a between q after i E2 Ha Hq). }
  intros ps qs HP H. apply B. apply (A ps qs HP). apply B. exact H.
Qed.

Lemma reduce_perm : forall b rs rs' i c, inside b i -> Permutation (concat rs) (concat rs') ->
  disjoint_patches (concat rs) ->
  reduce (map (local_fab b) rs) i c = reduce (map (local_fab b) rs') i c.
Proof.
  intros b rs rs' i c Hb HP Hd.
  destruct (existsb (fun p => existsb (cell_eqb i) (pcells p)) (concat rs)) eqn:E.
  - apply existsb_exists in E. destruct E as [p [Hp Hi]]. apply mem_true in Hi.
    rewrite (reduce_one b rs i c p Hd Hp Hi Hb).
    rewrite (reduce_one b rs' i c p (disjoint_perm _ _ HP Hd) (Permutation_in p HP Hp) Hi Hb). reflexivity.
  - assert (H : forall p, In p (concat rs) -> ~ In i (pcells p)).
    { intros p Hp Hi.
      assert (existsb (fun p => existsb (cell_eqb i) (pcells p)) (concat rs) = true).
      { apply existsb_exists. exists p. split; [exact Hp | apply mem_true; exact Hi]. }
      congruence. }
    rewrite reduce_none by exact H. rewrite reduce_none; [reflexivity|].
    intros p Hp. apply H. apply (Permutation_in p (Permutation_sym HP) Hp).
Qed.

(** Two hierarchies with the same boxes, ratios and patches. *)
Definition same_but_owners (x y : box * level) : Prop :=
  fst x = fst y /\ ratio (snd x) = ratio (snd y) /\ Permutation (patches (snd x)) (patches (snd y)).

Theorem gathered_perm : forall ncomp ls ls', Forall2 same_but_owners ls ls' ->
  nested ls -> (forall b l, In (b, l) ls -> disjoint_patches (patches l)) ->
  forall i c, (c < ncomp)%nat -> match ls with [] => False | (b, _) :: _ => inside b i end ->
  gathered ncomp ls i c = gathered ncomp ls' i c.
Proof.
  intros ncomp ls ls' HF. induction HF as [|[b l] [b' l'] ls ls' [E1 [E2 E3]] HF IH]; intros Hn Hd i c Hc Hb; [destruct Hb|].
  cbn in E1, E2, E3. subst b'.
  assert (ER : forall k, reduce (map (local_fab b) (ranks l)) i k = reduce (map (local_fab b) (ranks l')) i k).
  { intros k. apply reduce_perm; [exact Hb | exact E3 | apply (Hd b l); left; reflexivity]. }
  cbn [gathered]. destruct ls as [|[b1 l1] ls].
  - inversion HF. apply ER.
  - destruct ls' as [|y ls']; [inversion HF|].
    rewrite !fill_value by assumption. rewrite !ER, E2.
    destruct (Req_EM_T (reduce (map (local_fab b) (ranks l')) i 0%nat) 0); [|reflexivity].
    destruct Hn as [Hn1 Hn2]. rewrite <- E2. apply IH; auto.
    + intros b0 l0 H0. apply (Hd b0 l0). right. exact H0.
    + apply Hn1. exact Hb.
Qed.
