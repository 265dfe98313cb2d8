(** Lemmas for C88: mole fractions, lanes, strings. *)
From Coq Require Import String List Reals Lra Lia Bool.
From Verif Require Import ReactorModel ReactorSpec ReactorProofs.
Import ListNotations.
Local Open Scope R_scope.

(** ** Strings *)

Lemma species_index_spec name ns : forall k i, species_index name ns k = Some i -> (k <= i)%nat /\ nth_error ns (i - k) = Some name.
Proof.
  induction ns as [|x ns IH]; intros k i H; cbn in H; [discriminate|]. destruct (string_dec name x) as [-> |N].
  - injection H as <-. split; [lia|]. rewrite Nat.sub_diag. reflexivity.
  - apply IH in H as [H1 H2]. split; [lia|]. replace (i - k)%nat with (S (i - S k)) by lia. exact H2.
Qed.

Lemma species_index_In name ns : In name ns -> forall k, exists i, species_index name ns k = Some i.
Proof.
  induction ns as [|x ns IH]; intros I k; [contradiction|]. cbn. destruct (string_dec name x) as [E|N]; [exists k; reflexivity|].
  destruct I as [-> |I]; [contradiction|]. exact (IH I (S k)).
Qed.

Lemma species_index_first name ns : forall k i, species_index name ns k = Some i -> forall j, (k <= j < i)%nat -> nth_error ns (j - k) <> Some name.
Proof.
  induction ns as [|x ns IH]; intros k i H j Hj; cbn in H; [discriminate|]. destruct (string_dec name x) as [-> |N].
  - injection H as <-. lia.
  - destruct (Nat.eq_dec j k) as [-> |D]; [rewrite Nat.sub_diag; cbn; congruence|].
    replace (j - k)%nat with (S (j - S k)) by lia. cbn. apply (IH _ _ H). lia.
Qed.

Lemma species_index_nth ns i name : NoDup ns -> nth_error ns i = Some name -> species_index name ns 0 = Some i.
Proof.
  intros D H. destruct (species_index_In name ns (nth_error_In _ _ H) 0) as [j E]. pose proof (species_index_spec _ _ _ _ E) as [_ F].
  rewrite Nat.sub_0_r in F. rewrite E. f_equal. eapply NoDup_nth_error; [exact D|apply nth_error_Some; congruence|congruence].
Qed.

Lemma length_put i v l : length (put i v l) = length l.
Proof. revert i. induction l as [|x l IH]; intros [|i]; cbn; try reflexivity. rewrite IH. reflexivity. Qed.
Lemma nth_put_same i v l : (i < length l)%nat -> nth i (put i v l) 0 = v.
Proof. revert i. induction l as [|x l IH]; intros [|i] H; cbn in *; try lia; [reflexivity|]. apply IH. lia. Qed.
Lemma nth_put_other i j v l : i <> j -> nth j (put i v l) 0 = nth j l 0.
Proof. revert i j. induction l as [|x l IH]; intros [|i] [|j] H; cbn; try reflexivity; try congruence. apply IH. congruence. Qed.
Lemma total_put i v l : (i < length l)%nat -> nth i l 0 = 0 -> total (put i v l) = total l + v.
Proof. revert i. induction l as [|x l IH]; intros [|i] H E; cbn in *; try lia; [lra|]. rewrite IH by (try lia; exact E). ring. Qed.

Section S.
Variable m : mechanism.

Lemma assign_spec : forall entries Y s,
  NoDup (map fst entries) -> (forall e, In e entries -> In (fst e) (names m)) -> length Y = length (names m) ->
  (forall e i, In e entries -> species_index (fst e) (names m) 0 = Some i -> nth i Y 0 = 0) ->
  exists Y', assign_entries m entries Y s = (Y', Some (s + total (map snd entries))) /\ length Y' = length Y /\
    total Y' = total Y + total (map snd entries) /\
    (forall e i, In e entries -> species_index (fst e) (names m) 0 = Some i -> nth i Y' 0 = snd e) /\
    (forall i, (forall e, In e entries -> species_index (fst e) (names m) 0 <> Some i) -> nth i Y' 0 = nth i Y 0).
Proof.
  induction entries as [|[name v] rest IH]; intros Y s D K L Z; cbn [assign_entries map fst snd total] in *.
  - exists Y. split; [do 2 f_equal; ring|]. split; [reflexivity|]. split; [ring|]. split; [intros e i []|reflexivity].
  - inversion D as [|x xs N D']; subst.
    destruct (species_index_In name (names m) (K (name, v) (or_introl eq_refl)) 0) as [i E]. rewrite E.
    pose proof (species_index_spec _ _ _ _ E) as [_ F]. rewrite Nat.sub_0_r in F.
    assert (i < length (names m))%nat as Hi by (apply nth_error_Some; congruence).
    assert (forall e j, In e rest -> species_index (fst e) (names m) 0 = Some j -> j <> i) as Dj.
    { intros e j I Ej ->. apply N. pose proof (species_index_spec _ _ _ _ Ej) as [_ G]. rewrite Nat.sub_0_r in G.
      assert (fst e = name) by congruence. subst. apply in_map. exact I. }
    destruct (IH (put i v Y) (s + v)) as (Y' & H1 & H2 & H3 & H4 & H5).
    + exact D'.
    + intros e I. apply K. right. exact I.
    + rewrite length_put. exact L.
    + intros e j I Ej. rewrite nth_put_other by (intros Q; exact (Dj e j I Ej (eq_sym Q))). apply (Z e j); [right; exact I|exact Ej].
    + exists Y'. split; [rewrite H1; do 2 f_equal; ring|]. split; [rewrite H2; apply length_put|]. split.
      * rewrite H3, total_put; [ring|lia|]. apply (Z (name, v) i); [left; reflexivity|exact E].
      * split.
        -- intros e j [<- |I] Ej; [|apply H4; assumption]. cbn [fst snd] in *. rewrite E in Ej. injection Ej as <-.
           rewrite H5; [apply nth_put_same; lia|]. intros e I Ej. exact (Dj e i I Ej eq_refl).
        -- intros j Hj. rewrite H5 by (intros e I; apply Hj; right; exact I). apply nth_put_other. intros ->. apply (Hj (name, v) (or_introl eq_refl)). exact E.
Qed.
End S.

(** ** MeanX *)

Lemma fold_meanx (W : R) : forall q Y M z,
  fold_left (fun acc p => acc + fst (fst p) * snd (fst p) * W / snd p) (combine (combine q Y) M) z =
  z + W * weighted q (map (fun p => fst p / snd p) (combine Y M)).
Proof.
  induction q as [|a q IH]; intros [|y Y] [|x M] z; cbn [combine fold_left map weighted fst snd]; try ring. rewrite IH. unfold Rdiv. ring.
Qed.

Lemma weighted_ext q a b : a = b -> weighted q a = weighted q b.
Proof. intros ->. reflexivity. Qed.

Lemma weighted_scale_r k q a : weighted q (map (fun x => k * x) a) = k * weighted q a.
Proof. revert a. induction q as [|x q IH]; intros [|y a]; cbn; try ring. rewrite IH. ring. Qed.

Lemma to_mass_over m X : all_pos (molarMasses m) -> length X = length (molarMasses m) ->
  map (fun p => fst p / snd p) (combine (to_mass m X) (molarMasses m)) = map (fun x => / weighted X (molarMasses m) * x) X.
Proof.
  intros H L. rewrite to_mass_eq. generalize (weighted X (molarMasses m)) as w. intros w. revert X L H. generalize (molarMasses m) as M. clear.
  induction M as [|z M IH]; intros [|x X] L HM; try discriminate; [reflexivity|]. injection L as L. cbn.
  rewrite IH; [|exact L|intros v J; apply HM; right; exact J]. f_equal. assert (0 < z) by (apply HM; left; reflexivity).
  unfold Rdiv. generalize (/ w). intros v. field. lra.
Qed.

Lemma moles_to_mass m rho X : all_pos (molarMasses m) -> length X = length (molarMasses m) ->
  moles_of m rho (to_mass m X) = map (fun x => rho / weighted X (molarMasses m) * x) X.
Proof.
  intros H L. transitivity (map (fun y => rho * y) (map (fun p => fst p / snd p) (combine (to_mass m X) (molarMasses m)))).
  - unfold moles_of. rewrite map_map. apply map_ext. intros [a b]. cbn. unfold Rdiv. ring.
  - rewrite to_mass_over by assumption. rewrite map_map. apply map_ext. intros a. unfold Rdiv. ring.
Qed.

Lemma clip_total_pos fr x : In x fr -> 0 < x -> 0 < total (map (Rmax 0) fr).
Proof. exact (clip_pos fr x). Qed.

Lemma map_div_scale (l : list R) s : map (fun y => y / s) l = map (fun y => / s * y) l.
Proof. apply map_ext. intros y. unfold Rdiv. ring. Qed.
