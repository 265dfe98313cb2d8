(** Proofs about cut cells, probes, time series and old files. *)
From Coq Require Import Reals ZArith Bool String List Lia Lra Permutation.
Import ListNotations.
From Verif Require Import Hdf5Model Hdf5Spec Hdf5Proofs.
Local Open Scope R_scope.

(** ** Cut cells *)

Lemma cut_data : forall (restrict : bool) ncomp b ps f i c, (c < ncomp)%nat ->
  cut_local restrict ncomp b f ps i c = fold_left (copy_patch b) (map as_patch ps) f i c.
Proof.
  intros restrict ncomp b. unfold cut_local. induction ps as [|p ps IH]; intros f i c Hc; cbn [fold_left map]; [reflexivity|].
  rewrite IH by assumption.
  assert (E : forall g h, g i c = h i c -> fold_left (copy_patch b) (map as_patch ps) g i c = fold_left (copy_patch b) (map as_patch ps) h i c).
  { clear IH. induction ps as [|q ps IH]; intros g h H; cbn [fold_left map]; [exact H|]. apply IH.
    unfold copy_patch. rewrite H. reflexivity. }
  apply E. unfold copy_cpatch, copy_patch, as_patch. cbn [pcells pdata].
  apply PeanoNat.Nat.ltb_lt in Hc. rewrite Hc.
  destruct (in_box b i), (existsb (cell_eqb i) (valid p)); reflexivity.
Qed.

Lemma cut_alpha_step : forall (restrict : bool) ncomp b f p i (H : inside b i),
  copy_cpatch restrict ncomp b f p i ncomp =
  if existsb (cell_eqb i) (if restrict then valid p else grown p) then alpha p i else f i ncomp.
Proof.
  intros. unfold copy_cpatch. apply in_box_true in H. rewrite H.
  rewrite PeanoNat.Nat.ltb_irrefl, PeanoNat.Nat.eqb_refl. reflexivity.
Qed.

Lemma cut_alpha_none : forall (restrict : bool) ncomp b ps f i, inside b i ->
  (forall p, In p ps -> ~ In i (if restrict then valid p else grown p)) ->
  cut_local restrict ncomp b f ps i ncomp = f i ncomp.
Proof.
  intros restrict ncomp b. unfold cut_local. induction ps as [|p ps IH]; intros f i Hb H; cbn [fold_left]; [reflexivity|].
  rewrite IH; [|exact Hb | intros q Hq; apply H; right; exact Hq].
  rewrite cut_alpha_step by exact Hb.
  rewrite (mem_false i _ (H p (or_introl eq_refl))). reflexivity.
Qed.

Lemma cut_alpha_some : forall (restrict : bool) ncomp b ps f i a, inside b i ->
  (exists p, In p ps /\ In i (if restrict then valid p else grown p)) ->
  (forall p, In p ps -> In i (if restrict then valid p else grown p) -> alpha p i = a) ->
  cut_local restrict ncomp b f ps i ncomp = a.
Proof.
  intros restrict ncomp b. unfold cut_local. induction ps as [|p ps IH]; intros f i a Hb He Ha; [destruct He as [q [[] _]]|].
  cbn [fold_left].
  destruct (existsb (fun q => existsb (cell_eqb i) (if restrict then valid q else grown q)) ps) eqn:E.
  - apply IH; [exact Hb | | intros q Hq; apply Ha; right; exact Hq].
    apply existsb_exists in E. destruct E as [q [Hq Hi]]. apply mem_true in Hi. exists q. split; assumption.
  - assert (N : forall q, In q ps -> ~ In i (if restrict then valid q else grown q)).
    { intros q Hq Hi. assert (X : existsb (fun q => existsb (cell_eqb i) (if restrict then valid q else grown q)) ps = true).
      { apply existsb_exists. exists q. split; [exact Hq | apply mem_true; exact Hi]. }
      congruence. }
    pose proof (cut_alpha_none restrict ncomp b ps (copy_cpatch restrict ncomp b f p) i Hb N) as E1.
    unfold cut_local in E1. rewrite E1. rewrite cut_alpha_step by exact Hb.
    destruct He as [q [[->|Hq] Hi]].
    + rewrite (proj2 (mem_true i _) Hi). apply Ha; [left; reflexivity | exact Hi].
    + exfalso. apply (N q Hq Hi).
Qed.

Lemma cut_fill_fold : forall ncomp b r coarse L f i c, inside b i -> ~ In 0%nat L -> ~ In ncomp L ->
  fold_left (cut_fill_component ncomp b r coarse) L f i c =
  if in_dec PeanoNat.Nat.eq_dec c L then
    (if Req_EM_T (f i 0%nat) 0 then (if Rlt_dec 0 (f i ncomp) then coarse (coarsen r i) c else f i c) else f i c)
  else f i c.
Proof.
  intros ncomp b r coarse. induction L as [|k L IH]; intros f i c Hb H0 Hn; cbn [fold_left].
  - destruct (in_dec PeanoNat.Nat.eq_dec c []) as [[]|_]; reflexivity.
  - assert (Hk : (0 =? k)%nat = false) by (apply PeanoNat.Nat.eqb_neq; intros <-; apply H0; left; reflexivity).
    assert (Hk' : (ncomp =? k)%nat = false) by (apply PeanoNat.Nat.eqb_neq; intros <-; apply Hn; left; reflexivity).
    assert (HL : ~ In 0%nat L) by (intros H; apply H0; right; exact H).
    assert (HL' : ~ In ncomp L) by (intros H; apply Hn; right; exact H).
    rewrite IH by assumption.
    apply in_box_true in Hb.
    assert (E0 : cut_fill_component ncomp b r coarse f k i 0%nat = f i 0%nat).
    { unfold cut_fill_component. rewrite Hk. reflexivity. }
    assert (En : cut_fill_component ncomp b r coarse f k i ncomp = f i ncomp).
    { unfold cut_fill_component. rewrite Hk'. reflexivity. }
    rewrite E0, En.
    assert (Ec : cut_fill_component ncomp b r coarse f k i c =
                 if (c =? k)%nat then (if Req_EM_T (f i 0%nat) 0 then (if Rlt_dec 0 (f i ncomp) then coarse (coarsen r i) k else f i c) else f i c) else f i c).
    { unfold cut_fill_component. rewrite Hb, andb_true_r. reflexivity. }
    rewrite Ec.
    destruct (PeanoNat.Nat.eqb_spec c k) as [->|Hc].
    + destruct (in_dec PeanoNat.Nat.eq_dec k (k :: L)) as [_|H]; [|exfalso; apply H; left; reflexivity].
      destruct (in_dec PeanoNat.Nat.eq_dec k L); destruct (Req_EM_T (f i 0%nat) 0); destruct (Rlt_dec 0 (f i ncomp)); reflexivity.
    + destruct (in_dec PeanoNat.Nat.eq_dec c L) as [H|H];
        destruct (in_dec PeanoNat.Nat.eq_dec c (k :: L)) as [H'|H']; try reflexivity.
      * exfalso. apply H'. right. exact H.
      * destruct H' as [->|H']; [congruence | contradiction].
Qed.

Lemma cut_fill_value : forall ncomp b r coarse f i c, inside b i -> (c < ncomp)%nat ->
  cut_fill ncomp b r coarse f i c =
  if Req_EM_T (f i 0%nat) 0 then (if Rlt_dec 0 (f i ncomp) then coarse (coarsen r i) c else f i c) else f i c.
Proof.
  intros ncomp b r coarse f i c Hb Hc. unfold cut_fill. rewrite fold_left_app. cbn [fold_left].
  assert (H0 : ~ In 0%nat (seq 1 (ncomp - 1))) by (intros H; apply in_seq in H; lia).
  assert (Hn : ~ In ncomp (seq 1 (ncomp - 1))) by (intros H; apply in_seq in H; lia).
  unfold cut_fill_component at 1.
  rewrite !(cut_fill_fold ncomp b r coarse (seq 1 (ncomp - 1)) f i _ Hb H0 Hn).
  pose proof (proj2 (in_box_true b i) Hb) as Hb'. rewrite Hb', andb_true_r.
  destruct (in_dec PeanoNat.Nat.eq_dec 0%nat (seq 1 (ncomp - 1))) as [H|_]; [contradiction|].
  destruct (in_dec PeanoNat.Nat.eq_dec ncomp (seq 1 (ncomp - 1))) as [H|_]; [contradiction|].
  destruct (PeanoNat.Nat.eqb_spec c 0) as [->|Hz].
  - destruct (in_dec PeanoNat.Nat.eq_dec 0%nat (seq 1 (ncomp - 1))) as [H|_]; [contradiction|].
    destruct (Req_EM_T (f i 0%nat) 0); [|reflexivity]. destruct (Rlt_dec 0 (f i ncomp)); reflexivity.
  - destruct (in_dec PeanoNat.Nat.eq_dec c (seq 1 (ncomp - 1))) as [_|H]; [reflexivity|].
    exfalso. apply H. apply in_seq. lia.
Qed.

Lemma cut_fill_alpha : forall ncomp b r coarse f i, inside b i -> (0 < ncomp)%nat ->
  cut_fill ncomp b r coarse f i ncomp = f i ncomp.
Proof.
  intros ncomp b r coarse f i Hb Hc. unfold cut_fill. rewrite fold_left_app. cbn [fold_left].
  assert (H0 : ~ In 0%nat (seq 1 (ncomp - 1))) by (intros H; apply in_seq in H; lia).
  assert (Hn : ~ In ncomp (seq 1 (ncomp - 1))) by (intros H; apply in_seq in H; lia).
  unfold cut_fill_component at 1.
  rewrite (proj2 (PeanoNat.Nat.eqb_neq ncomp 0)) by lia. cbn [andb].
  rewrite (cut_fill_fold ncomp b r coarse (seq 1 (ncomp - 1)) f i _ Hb H0 Hn).
  destruct (in_dec PeanoNat.Nat.eq_dec ncomp (seq 1 (ncomp - 1))) as [H|_]; [contradiction | reflexivity].
Qed.

Lemma reduce_single : forall f i c, reduce [f] i c = f i c.
Proof. intros. unfold reduce. cbn. lra. Qed.

Lemma grown_dec : forall ps i, {exists p, In p ps /\ In i (grown p)} + {forall p, In p ps -> ~ In i (grown p)}.
Proof.
  intros ps i. destruct (existsb (fun p => existsb (cell_eqb i) (grown p)) ps) eqn:E; [left | right].
  - apply existsb_exists in E. destruct E as [p [Hp Hi]]. apply mem_true in Hi. exists p. split; assumption.
  - intros p Hp Hi. assert (X : existsb (fun p => existsb (cell_eqb i) (grown p)) ps = true).
    { apply existsb_exists. exists p. split; [exact Hp | apply mem_true; exact Hi]. }
    congruence.
Qed.

Definition head_inside {L} (ls : list (box * L)) (i : cell) : Prop :=
  match ls with [] => False | (b, _) :: _ => inside b i end.

Theorem cut_one_rank_alpha : forall ncomp ls i a,
  (0 < ncomp)%nat -> cut_nested ls ->
  (forall b l, In (b, l) ls -> exists ps, cranks l = [ps]) ->
  (forall b l, In (b, l) ls -> consistent_alpha l) ->
  head_inside ls i -> finest_alpha (map snd ls) i a ->
  cut_gathered false ncomp ls i ncomp = a.
Proof.
  intros ncomp ls. induction ls as [|[b l] ls IH]; intros i a Hn Hnest H1 Ha Hb Hf; [destruct Hb|].
  cbn [head_inside] in Hb.
  destruct (H1 b l (or_introl eq_refl)) as [ps Eps].
  pose proof (Ha b l (or_introl eq_refl)) as Hc. unfold consistent_alpha, cpatches in Hc. rewrite Eps in Hc. cbn in Hc. rewrite app_nil_r in Hc.
  assert (Estart : forall start0, reduce (cut_locals false ncomp b start0 (cranks l)) i ncomp = cut_local false ncomp b start0 ps i ncomp).
  { intros start0. rewrite Eps. cbn. apply reduce_single. }
  cbn [map snd] in Hf. inversion Hf as [l' ls' p i' Hp Hi|l' ls' i' a' Hnot Hbelow]; subst.
  - unfold cpatches in Hp. rewrite Eps in Hp. cbn in Hp. rewrite app_nil_r in Hp.
    assert (E : forall start0, reduce (cut_locals false ncomp b start0 (cranks l)) i ncomp = alpha p i).
    { intros start0. rewrite Estart. apply cut_alpha_some; [exact Hb | exists p; split; assumption|].
      intros q Hq Hqi. apply Hc; assumption. }
    cbn [cut_gathered]. destruct ls as [|x ls]; [apply E|]. cbv zeta. rewrite cut_fill_alpha by assumption. apply E.
  - assert (N : forall p, In p ps -> ~ In i (grown p)).
    { intros p Hp. apply Hnot. unfold cpatches. rewrite Eps. cbn. rewrite app_nil_r. exact Hp. }
    destruct ls as [|[b' l'] ls]; [inversion Hbelow|].
    cbn [cut_gathered]. cbv zeta. rewrite cut_fill_alpha by assumption. rewrite Estart.
    rewrite cut_alpha_none by assumption. unfold interpolate_alpha.
    rewrite PeanoNat.Nat.eqb_refl, (proj2 (in_box_true b i) Hb). cbn [andb].
    destruct Hnest as [Hn1 Hn2]. apply IH; auto.
    + intros b0 l0 H0. apply (H1 b0 l0). right. exact H0.
    + intros b0 l0 H0. apply (Ha b0 l0). right. exact H0.
    + apply Hn1. exact Hb.
Qed.

Theorem cut_one_rank_data : forall ncomp ls i c v,
  (c < ncomp)%nat -> cut_nested ls ->
  (forall b l, In (b, l) ls -> exists ps, cranks l = [ps]) ->
  (forall b l, In (b, l) ls -> consistent_alpha l) ->
  (forall b l, In (b, l) ls -> disjoint_patches (map as_patch (cpatches l))) ->
  (forall b l p j, In (b, l) ls -> In p (cpatches l) -> In j (valid p) -> In j (grown p)) ->
  (forall b l p j, In (b, l) ls -> In p (cpatches l) -> In j (valid p) -> 0 < alpha p j -> cdata p j 0%nat <> 0) ->
  head_inside ls i -> finest_cut (map snd ls) i c v ->
  cut_gathered false ncomp ls i c = v.
Proof.
  intros ncomp ls. induction ls as [|[b l] ls IH]; intros i c v Hc Hnest H1 Ha Hd Hg Hz Hb Hf; [destruct Hb|].
  cbn [head_inside] in Hb.
  destruct (H1 b l (or_introl eq_refl)) as [ps Eps].
  assert (Ecp : cpatches l = ps) by (unfold cpatches; rewrite Eps; cbn; apply app_nil_r).
  pose proof (Hd b l (or_introl eq_refl)) as Hdl. rewrite Ecp in Hdl.
  set (start0 := match ls with [] => zero_fab | _ :: _ => interpolate_alpha ncomp b (cratio l) (cut_gathered false ncomp ls) zero_fab end).
  set (f := reduce (cut_locals false ncomp b start0 (cranks l))).
  assert (Hs : forall k, (k < ncomp)%nat -> start0 i k = 0).
  { intros k Hk. unfold start0. destruct ls; [reflexivity|]. unfold interpolate_alpha.
    rewrite (proj2 (PeanoNat.Nat.eqb_neq k ncomp)) by lia. reflexivity. }
  assert (Ef : forall k, (k < ncomp)%nat -> f i k = fold_left (copy_patch b) (map as_patch ps) start0 i k).
  { intros k Hk. unfold f. rewrite Eps. cbn [cut_locals map]. rewrite reduce_single. apply cut_data. exact Hk. }
  assert (Ein : forall k p, (k < ncomp)%nat -> In p ps -> In i (valid p) -> f i k = cdata p i k).
  { intros k p Hk Hp Hi. rewrite Ef by exact Hk.
    rewrite (copy_one b (map as_patch ps) start0 i k (as_patch p) Hdl (in_map as_patch _ _ Hp) Hi Hb). reflexivity. }
  assert (Eout : forall k, (k < ncomp)%nat -> (forall p, In p ps -> ~ In i (valid p)) -> f i k = 0).
  { intros k Hk Hn. rewrite Ef by exact Hk. rewrite copy_none; [apply Hs; exact Hk|].
    intros q Hq. apply in_map_iff in Hq. destruct Hq as [p [<- Hp]]. apply Hn. exact Hp. }
  assert (Ealpha : forall a, finest_alpha (l :: map snd ls) i a -> f i ncomp = a).
  { intros a Hfa. pose proof (cut_one_rank_alpha ncomp ((b, l) :: ls) i a ltac:(lia) Hnest H1 Ha Hb Hfa) as E.
    unfold f, start0. cbn [cut_gathered] in E. destruct ls as [|x ls]; [exact E|].
    cbv zeta in E. rewrite cut_fill_alpha in E by (try assumption; lia). exact E. }
  assert (Eg : cut_gathered false ncomp ((b, l) :: ls) i c =
               match ls with [] => f i c | _ :: _ => cut_fill ncomp b (cratio l) (cut_gathered false ncomp ls) f i c end).
  { unfold f, start0. destruct ls; reflexivity. }
  rewrite Eg. clear Eg.
  cbn [map snd] in Hf.
  inversion Hf as [l' ls' p i' c' Hp Hi|l' ls' i' c' a v' Hnot Hfa Hpos Hbelow|l' ls' i' c' a Hnot Hfa Hneg]; subst l' ls' i' c'.
  - rewrite Ecp in Hp. destruct ls as [|x ls]; [apply Ein; assumption|].
    rewrite cut_fill_value by assumption.
    rewrite (Ein c p Hc Hp Hi), (Ein 0%nat p ltac:(lia) Hp Hi).
    destruct (Req_EM_T (cdata p i 0%nat) 0) as [H0|_]; [|reflexivity].
    destruct (Rlt_dec 0 (f i ncomp)) as [Hp0|_]; [|reflexivity]. exfalso.
    rewrite <- Ecp in Hp.
    pose proof (Hg b l p i (or_introl eq_refl) Hp Hi) as Hgi.
    rewrite (Ealpha (alpha p i) (alpha_here l (map snd (x :: ls)) p i Hp Hgi)) in Hp0.
    apply (Hz b l p i (or_introl eq_refl) Hp Hi Hp0 H0).
  - rewrite Ecp in Hnot. subst v'. destruct ls as [|[b' l'] ls]; [inversion Hbelow|].
    rewrite cut_fill_value by assumption.
    rewrite (Eout 0%nat ltac:(lia) Hnot), (Ealpha a Hfa).
    destruct (Req_EM_T 0 0) as [_|H0]; [|congruence].
    destruct (Rlt_dec 0 a) as [_|H0]; [|contradiction].
    destruct Hnest as [Hn1 Hn2]. apply IH; auto.
    + intros b0 l0 H0. apply (H1 b0 l0). right. exact H0.
    + intros b0 l0 H0. apply (Ha b0 l0). right. exact H0.
    + intros b0 l0 H0. apply (Hd b0 l0). right. exact H0.
    + intros b0 l0 p j H0. apply (Hg b0 l0 p j). right. exact H0.
    + intros b0 l0 p j H0. apply (Hz b0 l0 p j). right. exact H0.
    + apply Hn1. exact Hb.
  - rewrite Ecp in Hnot. destruct ls as [|x ls]; [apply Eout; assumption|].
    rewrite cut_fill_value by assumption.
    rewrite (Eout 0%nat ltac:(lia) Hnot), (Ealpha a Hfa), (Eout c Hc Hnot).
    destruct (Req_EM_T 0 0) as [_|H0]; [|reflexivity].
    destruct (Rlt_dec 0 a) as [H0|_]; [lra | reflexivity].
Qed.

(** Restricted outputs with any number of ranks. *)
Lemma cut_locals_zero : forall (restrict : bool) ncomp b rs,
  cut_locals restrict ncomp b zero_fab rs = map (cut_local restrict ncomp b zero_fab) rs.
Proof. intros restrict ncomp b [|r rs]; reflexivity. Qed.

Lemma restricted_reduce_none : forall ncomp b rs i c, inside b i -> (c <= ncomp)%nat ->
  (forall p, In p (concat rs) -> ~ In i (valid p)) ->
  reduce (map (cut_local true ncomp b zero_fab) rs) i c = 0.
Proof.
  intros ncomp b rs i c Hb Hc. induction rs as [|ps rs IH]; intros H; [reflexivity|].
  change (cut_local true ncomp b zero_fab ps i c + reduce (map (cut_local true ncomp b zero_fab) rs) i c = 0).
  rewrite IH by (intros p Hp; apply H; cbn; apply in_or_app; right; exact Hp).
  assert (N : forall p, In p ps -> ~ In i (valid p)) by (intros p Hp; apply H; cbn; apply in_or_app; left; exact Hp).
  destruct (PeanoNat.Nat.eq_dec c ncomp) as [->|Hne].
  - rewrite (cut_alpha_none true ncomp b ps zero_fab i Hb N). unfold zero_fab. lra.
  - rewrite cut_data by lia. rewrite copy_none; [unfold zero_fab; lra|].
    intros q Hq. apply in_map_iff in Hq. destruct Hq as [p [<- Hp]]. apply N. exact Hp.
Qed.

Lemma restricted_reduce_one : forall ncomp b rs i p, inside b i ->
  disjoint_patches (map as_patch (concat rs)) -> In p (concat rs) -> In i (valid p) ->
  (forall c, (c < ncomp)%nat -> reduce (map (cut_local true ncomp b zero_fab) rs) i c = cdata p i c) /\
  reduce (map (cut_local true ncomp b zero_fab) rs) i ncomp = alpha p i.
Proof.
  intros ncomp b rs i p Hb. induction rs as [|ps rs IH]; intros Hd Hp Hi; [destruct Hp|].
  cbn [concat] in Hd, Hp. rewrite map_app in Hd.
  destruct (disjoint_app (map as_patch ps) (map as_patch (concat rs)) Hd) as [D1 [D2 D3]].
  assert (ES : forall c, reduce (map (cut_local true ncomp b zero_fab) (ps :: rs)) i c =
     cut_local true ncomp b zero_fab ps i c + reduce (map (cut_local true ncomp b zero_fab) rs) i c) by reflexivity.
  setoid_rewrite ES.
  apply in_app_or in Hp. destruct Hp as [Hp|Hp].
  - assert (N : forall q, In q (concat rs) -> ~ In i (valid q)).
    { intros q Hq. apply (D3 (as_patch p) (as_patch q) i (in_map as_patch _ _ Hp) (in_map as_patch _ _ Hq) Hi). }
    split.
    + intros c Hc. rewrite restricted_reduce_none by (try assumption; lia). rewrite cut_data by exact Hc.
      rewrite (copy_one b (map as_patch ps) zero_fab i c (as_patch p) D1 (in_map as_patch _ _ Hp) Hi Hb). cbn. lra.
    + rewrite restricted_reduce_none by (try assumption; lia).
      rewrite (cut_alpha_some true ncomp b ps zero_fab i (alpha p i) Hb); [lra | exists p; split; assumption|].
      intros q Hq Hqi. destruct (in_split p ps Hp) as [l1 [l2 E]]. subst ps.
      apply in_app_or in Hq. rewrite map_app in D1. cbn [map] in D1.
      destruct (disjoint_app _ _ D1) as [_ [D4 D5]].
      destruct Hq as [Hq|[->|Hq]]; [|reflexivity|].
      * exfalso. apply (D5 (as_patch q) (as_patch p) i (in_map as_patch _ _ Hq) (or_introl eq_refl) Hqi Hi).
      * exfalso. apply (disjoint_head (as_patch p) (map as_patch l2) (as_patch q) i D4 (in_map as_patch _ _ Hq) Hi Hqi).
  - assert (N : forall q, In q ps -> ~ In i (valid q)).
    { intros q Hq Hqi. apply (D3 (as_patch q) (as_patch p) i (in_map as_patch _ _ Hq) (in_map as_patch _ _ Hp) Hqi Hi). }
    destruct (IH D2 Hp Hi) as [I1 I2]. split.
    + intros c Hc. rewrite (I1 c Hc). rewrite cut_data by exact Hc. rewrite copy_none; [unfold zero_fab; lra|].
      intros q Hq. apply in_map_iff in Hq. destruct Hq as [p' [<- Hp']]. apply N. exact Hp'.
    + rewrite I2. rewrite (cut_alpha_none true ncomp b ps zero_fab i Hb N). unfold zero_fab. lra.
Qed.

(** ** Probes *)

Lemma in_range_true : forall l i x, in_range l i x = true <-> contains l i x.
Proof.
  intros l i x. unfold in_range, contains. rewrite !plus_IZR.
  destruct (Rle_dec (fst (plo l) + IZR (fst i) * fst (dx l)) (fst x)),
           (Rlt_dec (fst x) (fst (plo l) + (IZR (fst i) + 1) * fst (dx l))),
           (Rle_dec (snd (plo l) + IZR (snd i) * snd (dx l)) (snd x)),
           (Rlt_dec (snd x) (snd (plo l) + (IZR (snd i) + 1) * snd (dx l))); cbn; split; intros H;
    try discriminate; try reflexivity; tauto.
Qed.

Lemma index_unique : forall o d x i j, 0 < d ->
  o + IZR i * d <= x < o + (IZR i + 1) * d -> o + IZR j * d <= x < o + (IZR j + 1) * d -> i = j.
Proof.
  intros o d x i j Hd H1 H2.
  assert (A : IZR i < IZR j + 1) by (apply (Rmult_lt_reg_r d); lra).
  assert (B : IZR j < IZR i + 1) by (apply (Rmult_lt_reg_r d); lra).
  rewrite <- plus_IZR in A, B. apply lt_IZR in A. apply lt_IZR in B. lia.
Qed.

Definition positive_dx (l : glevel) : Prop := 0 < fst (dx l) /\ 0 < snd (dx l).

Lemma contains_unique : forall l i j x, positive_dx l -> contains l i x -> contains l j x -> i = j.
Proof.
  intros l [i1 i2] [j1 j2] x [D1 D2] [A1 A2] [B1 B2]. cbn [fst snd] in *.
  rewrite (index_unique _ _ _ i1 j1 D1 A1 B1), (index_unique _ _ _ i2 j2 D2 A2 B2). reflexivity.
Qed.

Lemma visit_none : forall l x p st, (forall i, In i (pcells p) -> ~ contains l i x) -> visit_patch l x st p = st.
Proof.
  intros l x [cells d] st. unfold visit_patch. cbn. revert st. induction cells as [|i cells IH]; intros st H; cbn; [reflexivity|].
  destruct (in_range l i x) eqn:E.
  - apply in_range_true in E. exfalso. apply (H i (or_introl eq_refl) E).
  - apply IH. intros j Hj. apply H. right. exact Hj.
Qed.

Lemma visit_one : forall l x p st i, positive_dx l -> In i (pcells p) -> contains l i x ->
  visit_patch l x st p = pdata p i.
Proof.
  intros l x [cells d] st i HD. unfold visit_patch. cbn. revert st. induction cells as [|j cells IH]; intros st Hi Hc; [destruct Hi|].
  cbn. destruct (cell_in_dec i cells) as [Hin|Hout].
  - apply IH; assumption.
  - destruct Hi as [->|Hi]; [|contradiction].
    rewrite (proj2 (in_range_true l i x) Hc).
    pose proof (visit_none l x (mkPatch cells d) (d i)) as V. unfold visit_patch in V. cbn in V. apply V.
    intros j Hj Hcj. apply Hout. rewrite (contains_unique l i j x HD Hc Hcj). exact Hj.
Qed.

Lemma local_none : forall l x ps st, (forall p i, In p ps -> In i (pcells p) -> ~ contains l i x) ->
  fold_left (visit_patch l x) ps st = st.
Proof.
  intros l x. induction ps as [|p ps IH]; intros st H; cbn; [reflexivity|].
  rewrite visit_none by (intros i Hi; apply (H p i); [left; reflexivity | exact Hi]).
  apply IH. intros q i Hq. apply H. right. exact Hq.
Qed.

Lemma local_one : forall l x ps st p i, positive_dx l -> disjoint_patches ps -> In p ps -> In i (pcells p) -> contains l i x ->
  fold_left (visit_patch l x) ps st = pdata p i.
Proof.
  intros l x. induction ps as [|q ps IH]; intros st p i HD Hd Hp Hi Hc; [destruct Hp|].
  cbn. destruct Hp as [->|Hp].
  - rewrite (visit_one l x p st i HD Hi Hc). apply local_none.
    intros q j Hq Hj Hcj. rewrite <- (contains_unique l i j x HD Hc Hcj) in Hj.
    apply (disjoint_head p ps q i Hd Hq Hi Hj).
  - apply (IH _ p i HD (disjoint_tail _ _ Hd) Hp Hi Hc).
Qed.

Lemma probe_none : forall l x c, (forall p i, In p (gpatches l) -> In i (pcells p) -> ~ contains l i x) ->
  probe_level l x c = 0.
Proof.
  intros l x c. unfold gpatches, probe_level. induction (granks l) as [|ps rs IH]; intros H; cbn [fold_right]; [reflexivity|].
  rewrite IH by (intros p i Hp; apply H; cbn; apply in_or_app; right; exact Hp).
  unfold probe_local. rewrite local_none; [lra|]. intros p i Hp. apply H. cbn. apply in_or_app. left. exact Hp.
Qed.

Lemma probe_one : forall l x c p i, positive_dx l -> disjoint_patches (gpatches l) ->
  In p (gpatches l) -> In i (pcells p) -> contains l i x -> probe_level l x c = pdata p i c.
Proof.
  intros l x c p i HD. unfold gpatches, probe_level. induction (granks l) as [|ps rs IH]; intros Hd Hp Hi Hc; [destruct Hp|].
  cbn in Hd, Hp. destruct (disjoint_app ps (concat rs) Hd) as [D1 [D2 D3]]. cbn [fold_right].
  apply in_app_or in Hp. destruct Hp as [Hp|Hp].
  - assert (E : fold_right (fun ps s => probe_local l x ps c + s) 0 rs = 0).
    { apply (probe_none (mkGlevel rs (plo l) (dx l)) x c). unfold gpatches. cbn [granks].
      intros q j Hq Hj Hcj. assert (Ej : i = j) by (apply (contains_unique l i j x HD Hc); exact Hcj). subst j.
      apply (D3 p q i Hp Hq Hi Hj). }
    rewrite E. unfold probe_local. rewrite (local_one l x ps _ p i HD D1 Hp Hi Hc). lra.
  - rewrite (IH D2 Hp Hi Hc). unfold probe_local. rewrite local_none; [lra|].
    intros q j Hq Hj Hcj. assert (Ej : i = j) by (apply (contains_unique l i j x HD Hc); exact Hcj). subst j.
    apply (D3 q p i Hq Hp Hj Hi).
Qed.

Theorem gather_seen : forall ls x c v,
  (forall l, In l ls -> positive_dx l /\ disjoint_patches (gpatches l)) ->
  (forall l p i, In l ls -> In p (gpatches l) -> In i (pcells p) -> pdata p i c <> 0) ->
  seen ls x c v -> gather_state ls x c = v.
Proof.
  intros ls x c. induction ls as [|l ls IH]; intros v HL Hz Hs; [inversion Hs|].
  destruct (HL l (or_introl eq_refl)) as [HD Hd].
  inversion Hs as [l' ls' p i x' c' Hp Hi Hc|l' ls' x' c' v' Hnot Hbelow]; subst.
  - pose proof (probe_one l x c p i HD Hd Hp Hi Hc) as E. cbn [gather_state]. destruct ls as [|l' ls]; [exact E|].
    rewrite E. destruct (Req_EM_T (pdata p i c) 0) as [H0|_]; [|reflexivity].
    exfalso. apply (Hz l p i (or_introl eq_refl) Hp Hi H0).
  - pose proof (probe_none l x c Hnot) as E. cbn [gather_state]. destruct ls as [|l' ls]; [inversion Hbelow|].
    rewrite E. destruct (Req_EM_T 0 0) as [_|H0]; [|congruence].
    apply IH; [|intros k p i Hk; apply Hz; right; exact Hk | exact Hbelow].
    intros k Hk. apply HL. right. exact Hk.
Qed.

(** ** Time series *)

Lemma write_last_app : forall A (d : dataset A) o a, write_last (d ++ [o]) a = d ++ [Some a].
Proof. intros. unfold write_last. rewrite removelast_last. reflexivity. Qed.

Lemma append_series : forall A (os : list (output A)) o,
  write_to_hdf5 (Some (series os)) o = Some (series (os ++ [o])).
Proof.
  intros A os o. unfold write_to_hdf5, output_calls, append_calls, series. cbn -[write_last app map].
  rewrite !write_last_app. cbn -[write_last app map]. rewrite !map_app. reflexivity.
Qed.

Lemma create_series : forall A (o : output A), write_to_hdf5 None o = Some (series [o]).
Proof. intros. reflexivity. Qed.

Lemma write_all_series : forall A (os old : list (output A)),
  write_all (Some (series old)) os = Some (series (old ++ os)).
Proof.
  intros A os. unfold write_all. induction os as [|o os IH]; intros old; cbn [fold_left].
  - rewrite app_nil_r. reflexivity.
  - rewrite append_series, IH, <- app_assoc. reflexivity.
Qed.

Lemma write_all_new : forall A (o : output A) os, write_all None (o :: os) = Some (series (o :: os)).
Proof.
  intros A o os. change (write_all (write_to_hdf5 None o) os = Some (series (o :: os))).
  rewrite create_series, write_all_series. reflexivity.
Qed.

Lemma entry_map : forall A B (g : A -> B) os k,
  entry_at (Some (map (fun o => Some (g o)) os)) k = option_map g (nth_error os k).
Proof.
  intros A B g os. induction os as [|o os IH]; intros [|k]; cbn; try reflexivity. apply IH.
Qed.

Lemma entry_pad : forall B (d : dataset B) k, entry_at (Some (d ++ [None])) k = entry_at (Some d) k.
Proof.
  intros B d. induction d as [|x d IH]; intros k.
  - destruct k as [|[|k]]; reflexivity.
  - destruct k; [reflexivity|]. apply IH.
Qed.

(** The states of a file while one output is appended. *)
Lemma crash_states : forall A n (os : list (output A)) o,
  let D := map (fun p => Some (slab p)) os in
  let T := map (fun p => Some (time_point p)) os in
  let C := map (fun p => Some (cycle p)) os in
  let f := write_and_crash n (Some (series os)) o in
  f = Some (mkFile (Some D) (Some T) (Some C)) \/
  f = Some (mkFile (Some (D ++ [None])) (Some T) (Some C)) \/
  f = Some (mkFile (Some (D ++ [Some (slab o)])) (Some T) (Some C)) \/
  f = Some (mkFile (Some (D ++ [Some (slab o)])) (Some (T ++ [None])) (Some C)) \/
  f = Some (mkFile (Some (D ++ [Some (slab o)])) (Some (T ++ [Some (time_point o)])) (Some C)) \/
  f = Some (mkFile (Some (D ++ [Some (slab o)])) (Some (T ++ [Some (time_point o)])) (Some (C ++ [None]))) \/
  f = Some (mkFile (Some (D ++ [Some (slab o)])) (Some (T ++ [Some (time_point o)])) (Some (C ++ [Some (cycle o)]))).
Proof.
  intros A n os o D T C f. unfold f, write_and_crash, output_calls, append_calls, series. fold D T C.
  destruct n as [|[|[|[|[|[|n]]]]]]; cbn -[write_last app map]; rewrite ?write_last_app; cbn -[write_last app map];
    try (destruct n; cbn -[write_last app map]; rewrite ?write_last_app); tauto.
Qed.

Lemma create_crash_states : forall A n (o : output A),
  let f := write_and_crash n None o in
  f = None \/ f = Some (mkFile None None None) \/ f = Some (mkFile (Some [None]) None None) \/
  f = Some (mkFile (Some [Some (slab o)]) None None) \/
  f = Some (mkFile (Some [Some (slab o)]) (Some [None]) None) \/
  f = Some (mkFile (Some [Some (slab o)]) (Some [Some (time_point o)]) None) \/
  f = Some (mkFile (Some [Some (slab o)]) (Some [Some (time_point o)]) (Some [None])) \/
  f = Some (mkFile (Some [Some (slab o)]) (Some [Some (time_point o)]) (Some [Some (cycle o)])).
Proof.
  intros A n o f. unfold f, write_and_crash, output_calls, create_calls.
  destruct n as [|[|[|[|[|[|[|n]]]]]]]; cbn; try (destruct n; cbn); tauto.
Qed.

(** ** Old files *)

Lemma first_free_some : forall A (fs : files A) mk, (forall i j, mk i = mk j -> i = j) ->
  exists i, first_free fs mk = Some i /\ look fs (mk i) = None.
Proof.
  intros A fs mk Hinj. unfold first_free.
  destruct (find (fun i => negb (exists_at fs (mk i))) (seq 1 (Datatypes.S (List.length fs)))) as [i|] eqn:E.
  - exists i. split; [reflexivity|]. apply find_some in E. destruct E as [_ E].
    unfold exists_at in E. destruct (look fs (mk i)); [discriminate | reflexivity].
  - exfalso.
    assert (H : incl (map mk (seq 1 (Datatypes.S (List.length fs)))) (map fst fs)).
    { intros n Hn. apply in_map_iff in Hn. destruct Hn as [i [<- Hi]].
      pose proof (find_none _ _ E i Hi) as F. cbn in F. unfold exists_at in F.
      destruct (look fs (mk i)) as [e|] eqn:L; [|discriminate]. clear E F Hi.
      induction fs as [|[m e'] fs IH]; cbn in L; [discriminate|]. cbn.
      destruct (name_dec m (mk i)) as [->|_]; [left; reflexivity | right; apply IH; exact L]. }
    assert (N : NoDup (map mk (seq 1 (Datatypes.S (List.length fs))))).
    { apply FinFun.Injective_map_NoDup; [exact Hinj | apply seq_NoDup]. }
    pose proof (NoDup_incl_length N H) as HL. rewrite !map_length, seq_length in HL. lia.
Qed.

Lemma look_rename : forall A (fs : files A) from to n, look fs to = None -> from <> to ->
  look (rename fs from to) n =
  if name_dec n to then look fs from else if name_dec n from then None else look fs n.
Proof.
  intros A fs from to n. unfold rename. induction fs as [|[m e] fs IH]; intros Hto Hne.
  - cbn. destruct (name_dec n to), (name_dec n from); reflexivity.
  - cbn in Hto. cbn [filter fst map]. destruct (name_dec m to) as [->|Hm]; [discriminate|].
    specialize (IH Hto Hne). cbn [map fst snd look].
    destruct (name_dec m from) as [->|Hf]; cbn [look].
    + destruct (name_dec to n) as [->|Hn]; [destruct (name_dec n n); [reflexivity | congruence]|].
      rewrite IH. destruct (name_dec n to) as [->|_]; [congruence|].
      destruct (name_dec n from) as [->|Hnf]; [reflexivity|].
      destruct (name_dec from n) as [->|_]; [congruence | reflexivity].
    + rewrite IH. destruct (name_dec m n) as [->|Hmn].
      * destruct (name_dec n to) as [->|_]; [congruence|]. destruct (name_dec n from) as [->|_]; [congruence | reflexivity].
      * reflexivity.
Qed.

Lemma look_put : forall A (fs : files A) n f m,
  look (put fs n f) m = if name_dec n m then Some (Regular f) else look fs m.
Proof.
  intros A fs n f m. unfold put. cbn [look]. destruct (name_dec n m) as [->|Hn]; [reflexivity|].
  induction fs as [|[k e] fs IH]; [reflexivity|]. cbn [filter fst look].
  destruct (name_dec k n) as [->|Hk]; cbn [look].
  - rewrite IH. destruct (name_dec n m); [congruence | reflexivity].
  - rewrite IH. reflexivity.
Qed.

Lemma write_at_same : forall A (fs : files A) n o old, look fs n = Some (Regular (series old)) ->
  look (write_at fs n o) n = Some (Regular (series (old ++ [o]))).
Proof.
  intros A fs n o old H. unfold write_at. rewrite H, append_series, look_put.
  destruct (name_dec n n); [reflexivity | congruence].
Qed.

Lemma write_at_other : forall A (fs : files A) n o m, m <> n -> look (write_at fs n o) m = look fs m.
Proof.
  intros A fs n o m H. unfold write_at. destruct (look fs n) as [[f|]|].
  - destruct (write_to_hdf5 (Some f) o); [|reflexivity]. rewrite look_put. destruct (name_dec n m); [congruence | reflexivity].
  - reflexivity.
  - destruct (write_to_hdf5 None o); [|reflexivity]. rewrite look_put. destruct (name_dec n m); [congruence | reflexivity].
Qed.

Lemma write_all_at_same : forall A os (fs : files A) n old, look fs n = Some (Regular (series old)) ->
  look (write_all_at fs n os) n = Some (Regular (series (old ++ os))).
Proof.
  intros A. unfold write_all_at. induction os as [|o os IH]; intros fs n old H; cbn [fold_left].
  - rewrite app_nil_r. exact H.
  - rewrite (IH _ n (old ++ [o]) (write_at_same A fs n o old H)), <- app_assoc. reflexivity.
Qed.

Lemma write_all_at_other : forall A os (fs : files A) n m, m <> n -> look (write_all_at fs n os) m = look fs m.
Proof.
  intros A. unfold write_all_at. induction os as [|o os IH]; intros fs n m H; cbn [fold_left]; [reflexivity|].
  rewrite (IH _ n m H). apply write_at_other. exact H.
Qed.

Lemma write_all_at_new : forall A o os (fs : files A) n, look fs n = None ->
  look (write_all_at fs n (o :: os)) n = Some (Regular (series (o :: os))).
Proof.
  intros A o os fs n H. change (look (write_all_at (write_at fs n o) n os) n = Some (Regular (series (o :: os)))).
  rewrite (write_all_at_same A os (write_at fs n o) n [o]); [reflexivity|].
  unfold write_at. rewrite H, create_series, look_put. destruct (name_dec n n); [reflexivity | congruence].
Qed.

Lemma numbered_neq : forall n i, Numbered n i <> n.
Proof. induction n; intros j E; try discriminate. injection E as E1 E2. apply (IHn i). exact E1. Qed.
Lemma old_neq : forall n i, Old n i <> n.
Proof. induction n; intros j E; try discriminate. injection E as E1 E2. apply (IHn i). exact E1. Qed.

Theorem open_output_spec : forall A (fs : files A) path,
  let (path', fs') := open_output fs path in
  look fs' path' = None /\
  (forall n e, look fs n = Some e -> exists n', look fs' n' = Some e /\ (n <> path -> n' = n)) /\
  (forall n e, look fs' n = Some e -> exists n', look fs n' = Some e).
Proof.
  intros A fs path. unfold open_output.
  destruct (first_free_some A fs (Numbered path)) as [i [Ei Fi]]; [intros i j E; injection E; auto|].
  destruct (look fs path) as [[f|]|] eqn:L; [rewrite Ei | rewrite Ei |].
  - assert (Hne : path <> Numbered path i) by (intros E; apply (numbered_neq path i); congruence).
    split; [|split].
    + rewrite look_rename by assumption. destruct (name_dec path (Numbered path i)); [congruence|].
      destruct (name_dec path path); congruence.
    + intros n e Hn. destruct (name_dec n path) as [->|Hp].
      * exists (Numbered path i). rewrite look_rename by assumption.
        destruct (name_dec (Numbered path i) (Numbered path i)); [|congruence]. split; [exact Hn | congruence].
      * exists n. rewrite look_rename by assumption. destruct (name_dec n (Numbered path i)) as [->|_]; [congruence|].
        destruct (name_dec n path); [congruence|]. split; [exact Hn | reflexivity].
    + intros n e Hn. rewrite look_rename in Hn by assumption.
      destruct (name_dec n (Numbered path i)); [exists path; exact Hn|].
      destruct (name_dec n path); [discriminate | exists n; exact Hn].
  - split; [exact Fi|]. split; [intros n e Hn; exists n; split; [exact Hn | reflexivity] | intros n e Hn; exists n; exact Hn].
  - split; [exact L|]. split; [intros n e Hn; exists n; split; [exact Hn | reflexivity] | intros n e Hn; exists n; exact Hn].
Qed.

Theorem rename_spec : forall A (fs : files A) path,
  let fs' := rename_file_if_exists fs path in
  look fs' path = None /\
  (forall n, n <> path -> (forall i, n <> Old path i) -> look fs' n = look fs n) /\
  (forall n e, look fs n = Some e -> exists n', look fs' n' = Some e /\ (n <> path -> n' = n)).
Proof.
  intros A fs path. cbv zeta. unfold rename_file_if_exists, exists_at.
  destruct (first_free_some A fs (Old path)) as [i [Ei Fi]]; [intros i j E; injection E; auto|].
  destruct (look fs path) as [e0|] eqn:L.
  - rewrite Ei. assert (Hne : path <> Old path i) by (intros E; apply (old_neq path i); congruence).
    split; [|split].
    + rewrite look_rename by assumption. destruct (name_dec path (Old path i)); [congruence|].
      destruct (name_dec path path); congruence.
    + intros n Hn Ho. rewrite look_rename by assumption. destruct (name_dec n (Old path i)) as [E|_]; [exfalso; apply (Ho i E)|].
      destruct (name_dec n path); [congruence | reflexivity].
    + intros n e Hn. destruct (name_dec n path) as [->|Hp].
      * exists (Old path i). rewrite look_rename by assumption.
        destruct (name_dec (Old path i) (Old path i)); [|congruence]. split; [exact Hn | congruence].
      * exists n. rewrite look_rename by assumption. destruct (name_dec n (Old path i)) as [->|_]; [congruence|].
        destruct (name_dec n path); [congruence|]. split; [exact Hn | reflexivity].
  - split; [exact L|]. split; [reflexivity|]. intros n e Hn; exists n; split; [exact Hn | reflexivity].
Qed.
