(** Proofs for C144 and C145. *)
From Coq Require Import List ZArith Reals Bool Lra Lia Permutation.
From Verif Require Import PlenaModel FeedbackModel FeedbackSpec.
Import ListNotations.
Local Open Scope R_scope.

Lemma zrange_In a b i : In i (zrange a b) <-> (a <= i <= b)%Z.
Proof.
  unfold zrange. rewrite in_map_iff. split.
  - intros (k & <- & H). apply in_seq in H. lia.
  - intros H. exists (Z.to_nat (i - a)). split; [lia|]. apply in_seq. lia.
Qed.
Lemma zrange_NoDup a b : NoDup (zrange a b).
Proof. unfold zrange. apply FinFun.Injective_map_NoDup; [|apply seq_NoDup]. intros x y. lia. Qed.

Lemma NoDup_app {A} (l1 l2 : list A) : NoDup l1 -> NoDup l2 -> (forall x, In x l1 -> ~ In x l2) -> NoDup (l1 ++ l2).
Proof.
  induction l1 as [|a r IH]; cbn; intros H1 H2 H; [exact H2|]. inversion H1; subst. constructor.
  - rewrite in_app_iff. intros [?|?]; [tauto|]. apply (H a); auto.
  - apply IH; auto.
Qed.

Lemma points_In b x : In x (points b) <-> inside b x.
Proof.
  unfold points, inside. rewrite in_flat_map. split.
  - intros (j & Hj & H). apply in_map_iff in H. destruct H as (i & <- & Hi). apply zrange_In in Hi, Hj. cbn. lia.
  - intros [H1 H2]. exists (snd x). split; [apply zrange_In; lia|]. apply in_map_iff. exists (fst x).
    split; [destruct x; reflexivity|apply zrange_In; lia].
Qed.
Lemma points_NoDup b : NoDup (points b).
Proof.
  unfold points. generalize (zrange_NoDup (by0 b) (by1 b)). generalize (zrange (by0 b) (by1 b)).
  induction l as [|j r IH]; intros Hn; cbn; [constructor|]. inversion Hn; subst. apply NoDup_app.
  - apply FinFun.Injective_map_NoDup; [|apply zrange_NoDup]. intros x y E. now inversion E.
  - now apply IH.
  - intros x Ha Hb. apply in_map_iff in Ha. destruct Ha as (i & <- & _). apply in_flat_map in Hb.
    destruct Hb as (k & Hk & Hb). apply in_map_iff in Hb. destruct Hb as (i' & E & _). inversion E; subst. tauto.
Qed.
Lemma points_enum b : enumerates b (points b).
Proof. split; [apply points_NoDup|intros x; apply points_In]. Qed.

Lemma total_perm f l l' : Permutation l l' -> total f l = total f l'.
Proof. induction 1; cbn; lra. Qed.
Lemma total_ext f g l : (forall x, In x l -> f x = g x) -> total f l = total g l.
Proof. induction l as [|a r IH]; cbn; intros H; [reflexivity|]. rewrite (H a), IH; auto. Qed.
Lemma total_plus f g l : total (fun x => f x + g x) l = total f l + total g l.
Proof. induction l; cbn; lra. Qed.
Lemma total_zero l : total (fun _ => 0) l = 0.
Proof. induction l; cbn; lra. Qed.
Lemma total_scal c f l : total (fun x => c * f x) l = c * total f l.
Proof. induction l; cbn; lra. Qed.
Lemma total_filter f p l : total f (filter p l) = total (fun x => if p x then f x else 0) l.
Proof. induction l as [|a r IH]; cbn; [reflexivity|]. destruct (p a); cbn; lra. Qed.

Definition insideb (b : box) (x : Z * Z) : bool :=
  ((bx0 b <=? fst x) && (fst x <=? bx1 b) && (by0 b <=? snd x) && (snd x <=? by1 b))%Z.
Lemma insideb_spec b x : insideb b x = true <-> inside b x.
Proof. unfold insideb, inside. rewrite !andb_true_iff, !Z.leb_le. lia. Qed.

Lemma inter_perm b p : Permutation (points (inter b p)) (filter (insideb p) (points b)).
Proof.
  apply NoDup_Permutation; [apply points_NoDup|apply NoDup_filter, points_NoDup|].
  intros x. rewrite filter_In, !points_In, insideb_spec. unfold inside, inter; cbn. lia.
Qed.

Lemma fold_add f N l acc : fold_left (fun acc x => acc + f x / N) l acc = acc + total f l / N.
Proof. revert acc. induction l as [|a r IH]; intros acc; cbn; [unfold Rdiv; lra|]. rewrite IH. unfold Rdiv. lra. Qed.

(** What each patch adds *)
Definition share (b : box) (p : fab) : R :=
  total (fun x => if insideb (f_box p) x then f_data p (fst x) (snd x) else 0) (points b).
Fixpoint shares (b : box) (l : list fab) : R := match l with [] => 0 | p :: r => share b p + shares b r end.

Lemma local_average_shares b l : local_average b l = shares b l / INR (numPts b).
Proof.
  unfold local_average.
  enough (H : forall acc, fold_left (fun acc f =>
    fold_left (fun acc ij => acc + f_data f (fst ij) (snd ij) / INR (numPts b)) (points (inter b (f_box f))) acc) l acc =
    acc + shares b l / INR (numPts b)) by (rewrite H; lra).
  induction l as [|p r IH]; intros acc; cbn; [unfold Rdiv; lra|]. rewrite IH.
  rewrite (fold_add (fun ij => f_data p (fst ij) (snd ij))).
  rewrite (total_perm _ _ _ (inter_perm b (f_box p))), total_filter. unfold share, Rdiv. lra.
Qed.
Lemma shares_app b l l' : shares b (l ++ l') = shares b l + shares b l'.
Proof. induction l; cbn; lra. Qed.
Lemma average_shares b ranks : AverageState b ranks = shares b (concat ranks) / INR (numPts b).
Proof.
  unfold AverageState, allreduce. induction ranks as [|l r IH]; cbn; [unfold Rdiv; lra|].
  rewrite IH, local_average_shares, shares_app. unfold Rdiv. lra.
Qed.

(** How many patches contain a point *)
Fixpoint count (l : list fab) (x : Z * Z) : nat :=
  match l with [] => 0 | p :: r => (if insideb (f_box p) x then 1 else 0) + count r x end.
Lemma shares_count f b l : holds_field f l -> shares b l = total (fun x => INR (count l x) * f x) (points b).
Proof.
  induction l as [|p r IH]; intros H; cbn [shares count].
  - rewrite (total_ext _ (fun _ => 0)); [now rewrite total_zero|]. intros; cbn; lra.
  - rewrite IH by (intros q x Hq; apply H; now right). unfold share. rewrite <- total_plus. apply total_ext. intros x _.
    rewrite plus_INR. destruct (insideb (f_box p) x) eqn:E; cbn [INR].
    + rewrite (H p x); [lra|now left|now apply insideb_spec].
    + lra.
Qed.
Lemma count_app l l' x : count (l ++ l') x = (count l x + count l' x)%nat.
Proof. induction l; cbn; lia. Qed.
Lemma count_none l x : (forall p, In p l -> ~ inside (f_box p) x) -> count l x = 0%nat.
Proof.
  induction l as [|p r IH]; cbn; intros H; [reflexivity|]. rewrite IH by auto.
  destruct (insideb (f_box p) x) eqn:E; [|reflexivity]. apply insideb_spec in E. exfalso. apply (H p); auto.
Qed.
Lemma count_one l x : exactly_one (fun p => inside (f_box p) x) l -> count l x = 1%nat.
Proof.
  intros (l1 & p & l2 & -> & Hp & H). rewrite count_app. cbn. apply insideb_spec in Hp. rewrite Hp.
  rewrite !count_none; [lia| |]; intros q Hq; apply H, in_or_app; auto.
Qed.

Lemma nonempty_points b x : inside b x -> points b <> [].
Proof. intros H E. apply points_In in H. rewrite E in H. destruct H. Qed.
Lemma numPts_pos b : points b <> [] -> 0 < INR (numPts b).
Proof. unfold numPts. destruct (points b); [congruence|]. intros _. apply lt_0_INR. cbn. lia. Qed.

Lemma average_mean f b ranks : (exists x, inside b x) -> holds_field f (concat ranks) ->
  (forall x, inside b x -> exactly_one (fun p => inside (f_box p) x) (concat ranks)) ->
  is_mean b f (AverageState b ranks).
Proof.
  intros (x0 & Hx) Hf Hone. exists (points b). split; [apply points_enum|]. split; [eapply nonempty_points; eauto|].
  rewrite average_shares, (shares_count f) by assumption.
  pose proof (numPts_pos b (nonempty_points _ _ Hx)) as HN. fold (numPts b).
  rewrite (total_ext _ f); [field; lra|]. intros x Hin. apply points_In in Hin. rewrite count_one by auto. cbn. lra.
Qed.

Lemma mean_unique b f m m' : is_mean b f m -> is_mean b f m' -> m = m'.
Proof.
  intros (l & [Hn He] & Hl & E) (l' & [Hn' He'] & Hl' & E').
  assert (P : Permutation l l') by (apply NoDup_Permutation; auto; intros x; rewrite He, He'; tauto).
  rewrite (total_perm f _ _ P), (Permutation_length P) in E. rewrite <- E' in E.
  apply Rmult_eq_reg_r in E; [exact E|]. apply not_0_INR. destruct l'; [congruence|]. cbn. lia.
Qed.
Lemma mean_bounds b f m lo hi : is_mean b f m -> (forall x, inside b x -> lo <= f x <= hi) -> lo <= m <= hi.
Proof.
  intros (l & [Hn He] & Hl & E) H.
  assert (HN : 0 < INR (length l)) by (apply lt_0_INR; destruct l; [congruence|cbn; lia]).
  assert (HB : lo * INR (length l) <= total f l <= hi * INR (length l)).
  { assert (HH : forall x, In x l -> lo <= f x <= hi) by (intros x Hx; apply H, He, Hx). clear - HH.
    induction l as [|a r IH]; [cbn; lra|]. cbn [length total]. rewrite S_INR. pose proof (HH a (or_introl eq_refl)).
    assert (forall x, In x r -> lo <= f x <= hi) by (intros; apply HH; now right). specialize (IH H0). lra. }
  rewrite <- E in HB. destruct HB as [B1 B2]. split; apply (Rmult_le_reg_r (INR (length l))); lra.
Qed.

(** Faces of tubes *)
Lemma local_face_none face l : (forall p, In p l -> ~ (t_lo p <= face <= t_hi p + 1)%Z) -> local_face face l = 0.
Proof.
  unfold local_face. generalize 0. induction l as [|p r IH]; intros a H; cbn [fold_left]; [reflexivity|].
  destruct ((t_lo p <=? face) && (face <=? t_hi p + 1))%Z eqn:E.
  - rewrite andb_true_iff, !Z.leb_le in E. exfalso. apply (H p); [now left|lia].
  - apply IH. intros q Hq. apply H. now right.
Qed.
Lemma local_face_app face l l' : (forall p, In p l' -> ~ (t_lo p <= face <= t_hi p + 1)%Z) ->
  local_face face (l ++ l') = local_face face l.
Proof.
  intros H. unfold local_face. rewrite fold_left_app. generalize (fold_left (fun acc p => if ((t_lo p <=? face) && (face <=? t_hi p + 1))%Z then t_flux p face else acc) l 0).
  induction l' as [|p r IH]; intros a; cbn [fold_left]; [reflexivity|].
  destruct ((t_lo p <=? face) && (face <=? t_hi p + 1))%Z eqn:E.
  - rewrite andb_true_iff, !Z.leb_le in E. exfalso. apply (H p); [now left|lia].
  - apply IH. intros q Hq. apply H. now right.
Qed.
Lemma local_face_hit face l p : (t_lo p <= face <= t_hi p + 1)%Z -> local_face face (l ++ [p]) = t_flux p face.
Proof.
  intros H. unfold local_face. rewrite fold_left_app. cbn.
  replace ((t_lo p <=? face) && (face <=? t_hi p + 1))%Z with true; [reflexivity|]. symmetry.
  rewrite andb_true_iff, !Z.leb_le. lia.
Qed.

Lemma gather_cons face l r : gather_face face (l :: r) = local_face face l + gather_face face r.
Proof. reflexivity. Qed.
Lemma gather_none face ranks : (forall p, In p (concat ranks) -> ~ (t_lo p <= face <= t_hi p + 1)%Z) -> gather_face face ranks = 0.
Proof.
  induction ranks as [|l r IH]; cbn [concat]; intros H; [reflexivity|]. rewrite gather_cons.
  rewrite local_face_none, IH; [lra| |]; intros p Hp; apply H, in_or_app; auto.
Qed.
Lemma gather_one face ranks : forall l1 p l2, concat ranks = l1 ++ p :: l2 -> (t_lo p <= face <= t_hi p + 1)%Z ->
  (forall q, In q (l1 ++ l2) -> ~ (t_lo q <= face <= t_hi q + 1)%Z) -> gather_face face ranks = t_flux p face.
Proof.
  induction ranks as [|l r IH]; intros l1 p l2 E Hp H; [destruct l1; discriminate|].
  cbn in E. rewrite gather_cons. revert l1 E H. induction l as [|a l IHl] using rev_ind; intros l1 E H.
  - cbn in E. rewrite (IH l1 p l2 E Hp H). cbn. lra.
  - (* position of p: within l ++ [a] or within the rest *)
    destruct (Nat.lt_ge_cases (length l1) (length (l ++ [a]))) as [Hlt|Hge].
    + (* p in l ++ [a] *)
      assert (exists l2', l ++ [a] = l1 ++ p :: l2' /\ l2 = l2' ++ concat r) as (l2' & E1 & E2).
      { clear - E Hlt. revert l1 E Hlt. generalize (l ++ [a]) as m. induction m as [|b m IHm]; intros l1 E Hlt; cbn in Hlt; [lia|].
        destruct l1 as [|c l1]; cbn in E.
        - inversion E; subst. now exists m.
        - inversion E; subst. cbn in Hlt. destruct (IHm l1 H1 ltac:(lia)) as (l2' & -> & ->). now exists l2'. }
      rewrite E1. replace (l1 ++ p :: l2') with ((l1 ++ [p]) ++ l2') by (rewrite <- app_assoc; reflexivity).
      rewrite local_face_app.
      * rewrite local_face_hit by exact Hp.
        rewrite gather_none; [lra|]. intros q Hq. apply H. rewrite E2. apply in_or_app. right. apply in_or_app. auto.
      * intros q Hq. apply H. rewrite E2. apply in_or_app. right. apply in_or_app. auto.
    + assert (exists l1', l1 = (l ++ [a]) ++ l1' /\ concat r = l1' ++ p :: l2) as (l1' & E1 & E2).
      { clear - E Hge. revert l1 E Hge. generalize (l ++ [a]) as m. induction m as [|b m IHm]; intros l1 E Hge; cbn in *.
        - exists l1. auto.
        - destruct l1 as [|c l1]; cbn in *; [lia|]. inversion E; subst. destruct (IHm l1 H1 ltac:(lia)) as (l1' & -> & E2).
          exists l1'. auto. }
      rewrite local_face_none.
      * rewrite (IH l1' p l2 E2 Hp); [lra|]. intros q Hq. apply H. rewrite E1. apply in_app_iff in Hq.
        apply in_or_app. destruct Hq; [left|right; auto]. apply in_or_app. auto.
      * intros q Hq. apply H. rewrite E1. apply in_or_app. left. apply in_or_app. auto.
Qed.

Lemma apart_split l : ForallOrdPairs apart l -> forall l1 p l2, l = l1 ++ p :: l2 -> forall q, In q (l1 ++ l2) -> apart p q \/ apart q p.
Proof.
  induction 1 as [|a r Ha HF IH]; intros l1 p l2 E q Hq; [destruct l1; discriminate|].
  destruct l1 as [|b l1]; cbn in E; inversion E; subst.
  - left. rewrite Forall_forall in Ha. apply Ha. exact Hq.
  - destruct Hq as [<-|Hq].
    + right. rewrite Forall_forall in Ha. apply Ha, in_or_app. right. now left.
    + now apply (IH l1 p l2).
Qed.

Lemma gather_first lo hi f ranks : (lo <= hi)%Z -> decomposes lo hi (concat ranks) -> holds_flux f (concat ranks) ->
  gather_face lo ranks = f lo.
Proof.
  intros Hle (HF & HP & HC) Hf. destruct (HC lo ltac:(lia)) as (p & Hp & Hl).
  destruct (in_split _ _ Hp) as (l1 & l2 & E).
  rewrite (gather_one lo ranks l1 p l2 E ltac:(lia)).
  - apply Hf; [exact Hp|lia].
  - intros q Hq Hin. rewrite Forall_forall in HF.
    assert (Hq' : In q (concat ranks)) by (rewrite E; apply in_app_iff in Hq; apply in_or_app; destruct Hq; [left|right; right]; auto).
    pose proof (HF q Hq'). pose proof (HF p Hp).
    destruct (apart_split _ HP _ _ _ E q Hq) as [A|A]; unfold apart in A; lia.
Qed.
Lemma gather_last lo hi f ranks : (lo <= hi)%Z -> decomposes lo hi (concat ranks) -> holds_flux f (concat ranks) ->
  gather_face (hi + 1) ranks = f (hi + 1)%Z.
Proof.
  intros Hle (HF & HP & HC) Hf. destruct (HC hi ltac:(lia)) as (p & Hp & Hl).
  destruct (in_split _ _ Hp) as (l1 & l2 & E).
  rewrite (gather_one (hi + 1) ranks l1 p l2 E ltac:(lia)).
  - apply Hf; [exact Hp|lia].
  - intros q Hq Hin. rewrite Forall_forall in HF.
    assert (Hq' : In q (concat ranks)) by (rewrite E; apply in_app_iff in Hq; apply in_or_app; destruct Hq; [left|right; right]; auto).
    pose proof (HF q Hq'). pose proof (HF p Hp).
    destruct (apart_split _ HP _ _ _ E q Hq) as [A|A]; unfold apart in A; lia.
Qed.

(** Pressure of a mean state *)
Lemma ke_super r1 m1 r2 m2 : 0 < r1 -> 0 < r2 -> (m1 + m2) * (m1 + m2) / (r1 + r2) <= m1 * m1 / r1 + m2 * m2 / r2.
Proof.
  intros H1 H2.
  assert (E : m1 * m1 / r1 + m2 * m2 / r2 - (m1 + m2) * (m1 + m2) / (r1 + r2) =
              (m1 * r2 - m2 * r1) * (m1 * r2 - m2 * r1) * / (r1 * r2 * (r1 + r2))) by (field; repeat split; lra).
  assert (0 <= (m1 * r2 - m2 * r1) * (m1 * r2 - m2 * r1) * / (r1 * r2 * (r1 + r2))).
  { apply Rmult_le_pos; [apply Rle_0_sqr|]. left. apply Rinv_0_lt_compat. repeat apply Rmult_lt_0_compat; lra. }
  lra.
Qed.
