From Coq Require Import Reals List ZArith Lia Lra R_Ifp.
From Verif Require Import OutputModel OutputSpec.
Import ListNotations.
Local Open Scope R_scope.

Lemma Int_part_bounds x : IZR (Int_part x) <= x < IZR (Int_part x) + 1.
Proof. destruct (base_Int_part x). lra. Qed.

Lemma Int_part_unique x k : IZR k <= x < IZR k + 1 -> Int_part x = k.
Proof.
  intros [H1 H2]. destruct (Int_part_bounds x) as [H3 H4].
  assert (IZR k < IZR (Int_part x + 1)) by (rewrite plus_IZR; lra).
  assert (IZR (Int_part x) < IZR (k + 1)) by (rewrite plus_IZR; lra).
  apply lt_IZR in H, H0. lia.
Qed.

Lemma div_nonneg t I : 0 <= t -> 0 < I -> 0 <= t / I.
Proof. intros. apply Rmult_le_pos; auto. left. now apply Rinv_0_lt_compat. Qed.

(** fmod of a non-negative by a positive number *)
Lemma fmod_spec t I : 0 <= t -> 0 < I ->
  exists k r, fmod t I = Some r /\ (0 <= k)%Z /\ t = IZR k * I + r /\ 0 <= r < I.
Proof.
  intros Ht HI. unfold fmod. destruct (Req_EM_T I 0); [lra|].
  unfold trunc. pose proof (div_nonneg t I Ht HI) as Hd.
  destruct (Rle_dec 0 (t / I)); [|contradiction].
  exists (Int_part (t / I)), (t - IZR (Int_part (t / I)) * I).
  destruct (Int_part_bounds (t / I)) as [B1 B2].
  assert (Hq : t = t / I * I) by (field; lra).
  split; [reflexivity|]. split; [|split; [lra|]].
  - assert (H : (-1 < Int_part (t / I))%Z); [|lia]. apply lt_IZR. lra.
  - split.
    + assert (IZR (Int_part (t / I)) * I <= t / I * I) by (apply Rmult_le_compat_r; lra). lra.
    + assert (t / I * I < (IZR (Int_part (t / I)) + 1) * I) by (apply Rmult_lt_compat_r; lra). lra.
Qed.

Lemma fmod_unique t I k r : 0 <= t -> 0 < I -> t = IZR k * I + r -> 0 <= r < I -> fmod t I = Some r.
Proof.
  intros Ht HI Heq Hr. destruct (fmod_spec t I Ht HI) as (k' & r' & Hf & Hk & Heq' & Hr').
  rewrite Hf. f_equal.
  assert (k = k').
  { assert (A : (IZR k - IZR k') * I = r' - r) by lra.
    destruct (Z.lt_trichotomy k k') as [L|[L|L]]; auto; exfalso.
    - assert (IZR k + 1 <= IZR k') by (rewrite <- plus_IZR; apply IZR_le; lia). nra.
    - assert (IZR k' + 1 <= IZR k) by (rewrite <- plus_IZR; apply IZR_le; lia). nra. }
  subst k'. lra.
Qed.

Definition iter_val (eps t I : R) (v : R) : Prop :=
  0 < I /\ exists k, IZR k * I <= t < IZR (k + 1) * I /\ v = IZR (k + 1) * I + eps.

Lemma iter_spec eps t next I : 0 <= t ->
  (I <= 0 /\ next_output_iter eps t next I = next) \/
  (exists v, iter_val eps t I v /\ next_output_iter eps t next I = Rmin next v).
Proof.
  intros Ht. unfold next_output_iter. destruct (Rlt_dec 0 I) as [HI|HI].
  - right. destruct (fmod_spec t I Ht HI) as (k & r & Hf & Hk & Heq & Hr). rewrite Hf.
    exists (t + (I - r + eps)). split; [|reflexivity].
    split; [assumption|]. exists k. rewrite plus_IZR. split; lra.
  - left. split; [lra|reflexivity].
Qed.

Lemma fold_next_spec eps t Is : 0 <= t -> forall next0,
  let next := fold_left (next_output_iter eps t) Is next0 in
  next <= next0 /\
  (forall I, In I Is -> 0 < I -> exists v, iter_val eps t I v /\ next <= v) /\
  (next = next0 \/ exists I, In I Is /\ iter_val eps t I next).
Proof.
  intros Ht. induction Is as [|J Is IH]; intros next0; simpl.
  - split; [lra|]. split; [intros I []|now left].
  - destruct (IH (next_output_iter eps t next0 J)) as (A & B & C).
    set (nx := fold_left _ _ _) in *.
    destruct (iter_spec eps t next0 J Ht) as [[HJ E]|(v & Hv & E)]; rewrite E in *.
    + split; [exact A|]. split.
      * intros I [<-|Hin] HI; [lra|]. now apply B.
      * destruct C as [C|(I & Hin & C)]; [now left|]. right. exists I. split; [now right|exact C].
    + pose proof (Rmin_l next0 v). pose proof (Rmin_r next0 v). split; [lra|]. split.
      * intros I [<-|Hin] HI; [exists v; split; [exact Hv|lra]|]. now apply B.
      * destruct C as [C|(I & Hin & C)].
        -- unfold Rmin in C. destruct (Rle_dec next0 v); [now left|].
           right. exists J. split; [now left|]. rewrite C. exact Hv.
        -- right. exists I. split; [now right|exact C].
Qed.

Lemma iter_val_multiple eps t I v k : iter_val eps t I v -> t < IZR k * I -> v <= IZR k * I + eps.
Proof.
  intros [HI (j & [Hj1 Hj2] & ->)] Hk.
  assert (L : (j < k)%Z).
  { apply lt_IZR. apply Rmult_lt_reg_r with I; lra. }
  assert (IZR (j + 1) <= IZR k) by (apply IZR_le; lia).
  assert (IZR (j + 1) * I <= IZR k * I) by (apply Rmult_le_compat_r; lra). lra.
Qed.

Lemma C09_lemma : forall (dbl_max : R) (o : OutputAt) (t : R),
  0 <= t < dbl_max -> 0 <= out_eps o ->
  let next := next_output_time_at dbl_max o t in
  t < next /\
  (forall I, In I (intervals o) -> 0 < I -> next <= t + I + out_eps o) /\
  (forall I k, In I (intervals o) -> 0 < I -> t < IZR k * I -> next <= IZR k * I + out_eps o) /\
  (next = dbl_max \/
   exists I k, In I (intervals o) /\ 0 < I /\ t < IZR k * I /\ next = IZR k * I + out_eps o).
Proof.
  intros dbl_max o t [Ht Hm] He next. unfold next, next_output_time_at.
  destruct (fold_next_spec (out_eps o) t (intervals o) Ht dbl_max) as (A & B & C).
  set (nx := fold_left _ _ _) in *. split; [|split; [|split]].
  - destruct C as [->|(I & _ & HI & k & [H1 H2] & ->)]; [assumption|lra].
  - intros I Hin HI. destruct (B I Hin HI) as (v & [_ (k & [H1 H2] & ->)] & Hle).
    rewrite plus_IZR in *. lra.
  - intros I k Hin HI Hk. destruct (B I Hin HI) as (v & Hv & Hle).
    pose proof (iter_val_multiple _ _ _ _ _ Hv Hk). lra.
  - destruct C as [C|(I & Hin & HI & k & [H1 H2] & E)]; [now left|].
    right. exists I, (k + 1)%Z. auto.
Qed.

Lemma interval_hit_spec eps t I : 0 <= t -> 0 < I -> 2 * eps <= I ->
  (interval_hit eps t I = true <-> exists k, IZR k * I <= t < IZR k * I + 2 * eps).
Proof.
  intros Ht HI He. unfold interval_hit.
  destruct (fmod_spec t I Ht HI) as (k & r & Hf & Hk & Heq & Hr). rewrite Hf.
  rewrite Rabs_right by lra. destruct (Rlt_dec r (2 * eps)) as [L|L].
  - split; [|reflexivity]. intros _. exists k. lra.
  - split; [discriminate|]. intros (j & Hj). exfalso.
    assert (Hf2 : fmod t I = Some (t - IZR j * I)) by (apply (fmod_unique t I j); lra).
    rewrite Hf in Hf2. inversion Hf2. lra.
Qed.

Lemma any_of_opt_true {A} (f : A -> option bool) l : any_of_opt f l = Some true ->
  exists a, In a l /\ f a = Some true.
Proof.
  induction l as [|a r IH]; simpl; [discriminate|].
  destruct (f a) as [[|]|] eqn:E; try discriminate.
  - intros _. exists a; auto.
  - intros H. destruct (IH H) as (b & Hb & Hf). exists b; auto.
Qed.

Lemma any_of_opt_total {A} (f : A -> option bool) l : (forall a, In a l -> f a <> None) ->
  exists b, any_of_opt f l = Some b /\ (b = true <-> exists a, In a l /\ f a = Some true).
Proof.
  induction l as [|a r IH]; intros H; simpl.
  - exists false. split; [reflexivity|]. split; [discriminate|]. intros (a & [] & _).
  - destruct (f a) as [[|]|] eqn:E.
    + exists true. split; [reflexivity|]. split; [|reflexivity]. intros _. exists a; auto.
    + destruct IH as (b & Hb & Hiff); [intros; apply H; now right|].
      exists b. split; [exact Hb|]. rewrite Hiff. split; intros (x & Hx & Hfx).
      * exists x; auto.
      * destruct Hx as [<-|Hx]; [congruence|]. exists x; auto.
    + exfalso. apply (H a); auto. now left.
Qed.

Lemma frequency_hit_spec cycle freq : freq <> 0%Z ->
  exists b, frequency_hit cycle freq = Some b /\ (b = true <-> (freq | cycle)%Z).
Proof.
  intros Hf. unfold frequency_hit. destruct (Z.eqb_spec freq 0); [contradiction|].
  eexists. split; [reflexivity|]. rewrite Z.eqb_eq. rewrite Z.rem_divide; tauto.
Qed.

Lemma C09_shall_lemma : forall (o : OutputAt) (cycle : Z) (t : R),
  0 <= t -> (forall f, In f (frequencies o) -> f <> 0%Z) ->
  (forall I, In I (intervals o) -> 0 < I /\ 2 * out_eps o <= I) ->
  exists b, shall_output_at o cycle t = Some b /\
  (b = true <->
    (exists f, In f (frequencies o) /\ (f | cycle)%Z) \/ t = 0 \/
    (exists I k, In I (intervals o) /\ IZR k * I <= t < IZR k * I + 2 * out_eps o)).
Proof.
  intros o cycle t Ht Hf HI. unfold shall_output_at.
  destruct (any_of_opt_total (frequency_hit cycle) (frequencies o)) as (b & Hb & Hiff).
  { intros f Hin. destruct (frequency_hit_spec cycle f (Hf f Hin)) as (b & -> & _). discriminate. }
  rewrite Hb.
  assert (Hfreq : b = true <-> exists f, In f (frequencies o) /\ (f | cycle)%Z).
  { rewrite Hiff. split; intros (f & Hin & H); exists f; (split; [assumption|]);
    destruct (frequency_hit_spec cycle f (Hf f Hin)) as (b' & Hb' & Hi).
    - rewrite Hb' in H. inversion H; subst. now apply Hi.
    - rewrite Hb'. f_equal. now apply Hi. }
  destruct b.
  - exists true. split; [reflexivity|]. split; [|reflexivity]. intros _. left. now apply Hfreq.
  - destruct (Req_EM_T t 0) as [->|Hn].
    + exists true. split; [reflexivity|]. split; auto.
    + eexists. split; [reflexivity|]. rewrite existsb_exists. split.
      * intros (I & Hin & Hh). right; right.
        destruct (HI I Hin) as [H1 H2]. apply interval_hit_spec in Hh; auto.
        destruct Hh as [k Hk]. exists I, k. auto.
      * intros [H|[H|(I & k & Hin & Hk)]].
        -- apply Hfreq in H. discriminate.
        -- contradiction.
        -- exists I. split; [assumption|]. destruct (HI I Hin) as [H1 H2].
           apply interval_hit_spec; auto. exists k. exact Hk.
Qed.

Lemma C09_due_at_next_lemma : forall (dbl_max : R) (o : OutputAt) (cycle : Z) (t : R),
  0 <= t < dbl_max -> 0 < out_eps o ->
  (forall f, In f (frequencies o) -> f <> 0%Z) ->
  (forall I, In I (intervals o) -> 0 < I /\ 2 * out_eps o <= I) ->
  next_output_time_at dbl_max o t <> dbl_max ->
  shall_output_at o cycle (next_output_time_at dbl_max o t) = Some true.
Proof.
  intros dbl_max o cycle t Ht He Hf HI Hn.
  destruct (C09_lemma dbl_max o t Ht ltac:(lra)) as (A & _ & _ & [D|(I & k & Hin & HIp & Hk & E)]);
    [contradiction|].
  destruct (C09_shall_lemma o cycle (next_output_time_at dbl_max o t) ltac:(lra) Hf HI) as (b & Hb & Hiff).
  rewrite Hb. f_equal. apply Hiff. right; right. exists I, k. split; [assumption|]. lra.
Qed.

Lemma C09_zero_frequency_lemma : forall (o : OutputAt) (cycle : Z) (t : R) rest,
  frequencies o = 0%Z :: rest -> shall_output_at o cycle t = None.
Proof. intros o cycle t rest H. unfold shall_output_at. rewrite H. reflexivity. Qed.

(** * MultipleOutputs *)

Lemma C10_next_lemma : forall (G W : Type) (dbl_max : R) (ms : list (option (Member G W))) (t : R),
  let next := multi_next dbl_max ms t in
  next <= dbl_max /\
  (forall m, In (Some m) ms -> next <= m_next m t) /\
  (next = dbl_max \/ exists m, In (Some m) ms /\ next = m_next m t).
Proof.
  intros G W dbl_max ms t. unfold multi_next. revert dbl_max.
  induction ms as [|[m|] ms IH]; intros mx; simpl.
  - split; [lra|]. split; [intros m []|now left].
  - destruct (IH (Rmin mx (m_next m t))) as (A & B & C).
    pose proof (Rmin_l mx (m_next m t)). pose proof (Rmin_r mx (m_next m t)).
    split; [lra|]. split.
    + intros m' [E|Hin]; [inversion E; subst; lra|]. now apply B.
    + destruct C as [C|(m' & Hin & C)]; [|right; exists m'; split; [now right|exact C]].
      rewrite C. unfold Rmin. destruct (Rle_dec mx (m_next m t)); [now left|].
      right. exists m. split; [now left|reflexivity].
  - destruct (IH mx) as (A & B & C). split; [exact A|]. split.
    + intros m [E|Hin]; [discriminate|]. now apply B.
    + destruct C as [C|(m' & Hin & C)]; [now left|]. right; exists m'; split; [now right|exact C].
Qed.

Lemma C10_shall_lemma : forall (G W : Type) (ms : list (option (Member G W))) (g : G),
  multi_shall ms g = true <-> exists m, In (Some m) ms /\ m_shall m g = true.
Proof.
  intros G W ms g. unfold multi_shall. rewrite existsb_exists. split.
  - intros ([m|] & Hin & H); [|discriminate]. exists m; auto.
  - intros (m & Hin & H). exists (Some m); auto.
Qed.

Lemma C10_act_lemma : forall (G W : Type) (ms : list (option (Member G W))) (g : G) (w : W),
  multi_act ms g w = act_all (due_members ms g) g w.
Proof.
  intros G W ms g. unfold multi_act. induction ms as [|[m|] ms IH]; intros w; simpl.
  - reflexivity.
  - destruct (m_shall m g); simpl; apply IH.
  - apply IH.
Qed.

(** * Factory *)

Section Factory.
  Context {Name Maker : Type}.
  Variable eqb : Name -> Name -> bool.
  Hypothesis eqb_spec : forall a b, eqb a b = true <-> a = b.

  Lemma register_make (f : list (Name * Maker)) k (v : Maker) n :
    make_output eqb (fst (register_output eqb f k v)) n =
    match make_output eqb f n with
    | Some m => Some m
    | None => if eqb k n then Some v else None
    end.
  Proof.
    unfold register_output. destruct (make_output eqb f k) as [m0|] eqn:E; simpl.
    - destruct (make_output eqb f n) eqn:En; [reflexivity|].
      destruct (eqb k n) eqn:Ek; [|reflexivity]. apply eqb_spec in Ek. congruence.
    - destruct (eqb k n) eqn:Ek.
      + apply eqb_spec in Ek. subst. now rewrite E.
      + now destruct (make_output eqb f n).
  Qed.

  Lemma register_all_make (hist : list (Name * Maker)) : forall f n,
    make_output eqb (fst (register_all eqb f hist)) n =
    match make_output eqb f n with
    | Some m => Some m
    | None => first_registered eqb hist n
    end.
  Proof.
    induction hist as [|[k v] hist IH]; intros f n; simpl.
    - now destruct (make_output eqb f n).
    - pose proof (register_make f k v n) as R.
      destruct (register_output eqb f k v) as [f' b]. simpl in R.
      specialize (IH f' n). destruct (register_all eqb f' hist) as [f'' bs]. simpl in *.
      rewrite IH, R. destruct (make_output eqb f n); [reflexivity|].
      now destruct (eqb k n).
  Qed.

  Lemma register_all_flags (hist : list (Name * Maker)) : forall f i k v,
    nth_error hist i = Some (k, v) ->
    exists b, nth_error (snd (register_all eqb f hist)) i = Some b /\
    (b = true <-> make_output eqb f k = None /\ first_registered eqb (firstn i hist) k = None).
  Proof.
    induction hist as [|[k0 v0] hist IH]; intros f i k v H; [destruct i; discriminate|].
    simpl. pose proof (register_make f k0 v0 k) as R.
    destruct (register_output eqb f k0 v0) as [f' b0] eqn:Er. simpl in R.
    destruct (register_all eqb f' hist) as [f'' bs] eqn:Ea.
    destruct i as [|i]; simpl in *.
    - inversion H; subst. exists b0. split; [reflexivity|].
      unfold register_output in Er. destruct (make_output eqb f k); inversion Er; subst.
      + split; [discriminate|]. intros [? _]; discriminate.
      + tauto.
    - specialize (IH f' i k v H). rewrite Ea in IH. simpl in IH.
      destruct IH as (b & Hb & Hiff). exists b. split; [exact Hb|]. rewrite Hiff, R.
      destruct (make_output eqb f k); [split; intros [? ?]; discriminate|].
      destruct (eqb k0 k); [|tauto]. split; intros [? ?]; discriminate.
  Qed.

  Lemma C11_lemma : forall (history : list (Name * Maker)),
    let '(f, flags) := register_all eqb [] history in
    (forall n, make_output eqb f n = first_registered eqb history n) /\
    (forall n, factory_contains eqb f n = true <-> exists m, In (n, m) history) /\
    (forall i k v, nth_error history i = Some (k, v) ->
       exists b, nth_error flags i = Some b /\
       (b = true <-> forall j v', (j < i)%nat -> nth_error history j <> Some (k, v'))).
  Proof.
    intros history. destruct (register_all eqb [] history) as [f flags] eqn:E.
    assert (M : forall n, make_output eqb f n = first_registered eqb history n).
    { intros n. pose proof (register_all_make history [] n) as H. rewrite E in H. exact H. }
    assert (F : forall (h : list (Name * Maker)) n, first_registered eqb h n = None <-> forall j v', nth_error h j <> Some (n, v')).
    { clear - eqb_spec. induction h as [|[k0 v0] h IH]; intros n; simpl.
      - split; [intros _ [|j] v'; discriminate|reflexivity].
      - destruct (eqb k0 n) eqn:Ek.
        + apply eqb_spec in Ek. subst. split; [discriminate|]. intros H. now specialize (H 0%nat v0).
        + rewrite IH. split; intros H.
          * intros [|j] v'; simpl; [|apply H]. intros Heq. inversion Heq; subst.
            assert (eqb n n = true) by now apply eqb_spec. congruence.
          * intros j v'. apply (H (S j)). }
    split; [exact M|]. split.
    - intros n. unfold factory_contains. rewrite M.
      destruct (first_registered eqb history n) as [m|] eqn:Ef.
      + split; [|reflexivity]. intros _. exists m. revert Ef. clear -eqb_spec.
        induction history as [|[k v] h IH]; simpl; [discriminate|].
        destruct (eqb k n) eqn:Ek; intros H.
        * apply eqb_spec in Ek. inversion H; subst. now left.
        * right. now apply IH.
      + split; [discriminate|]. intros (m & Hin). apply In_nth_error in Hin. destruct Hin as [j Hj].
        apply F with (j := j) (v' := m) in Ef. contradiction.
    - intros i k v Hi. destruct (register_all_flags history [] i k v Hi) as (b & Hb & Hiff).
      rewrite E in Hb. exists b. split; [exact Hb|]. rewrite Hiff. simpl. rewrite F. split.
      + intros [_ H] j v' Hj Heq. apply (H j v'). rewrite <- Heq. 
        clear -Hj. revert i Hj. revert j. induction history as [|x h IH]; intros j i Hj.
        * destruct i, j; simpl; auto; lia.
        * destruct i; [lia|]. destruct j; [reflexivity|]. simpl. apply IH. lia.
      + intros H. split; [reflexivity|]. intros j v' Heq.
        destruct (Nat.lt_ge_cases j i) as [L|L].
        * apply (H j v' L). rewrite <- Heq. clear -L. revert i L. revert j.
          induction history as [|x h IH]; intros j i Hj.
          -- destruct i, j; simpl; auto; lia.
          -- destruct i; [lia|]. destruct j; [reflexivity|]. simpl. apply IH. lia.
        * assert (N : nth_error (firstn i history) j = None).
          { apply nth_error_None. rewrite firstn_length. lia. }
          congruence.
  Qed.
End Factory.
