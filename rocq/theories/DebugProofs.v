(** Proofs for C151. *)
From Coq Require Import String Ascii List Arith Bool DecimalString DecimalNat Lia Permutation.
From Verif Require Import DebugModel DebugSpec.
Import ListNotations.

Lemma append_cancel a b c : (a ++ b)%string = (a ++ c)%string -> b = c.
Proof. induction a as [|x a IH]; cbn; intros H; [exact H|]. injection H. exact IH. Qed.
Lemma decimal_inj k l : decimal k = decimal l -> k = l.
Proof.
  intros H. apply Unsigned.to_uint_inj. assert (E : forall d, NilEmpty.uint_of_string (NilEmpty.string_of_uint d) = Some d) by apply NilEmpty.usu.
  pose proof (E (Nat.to_uint k)) as E1. pose proof (E (Nat.to_uint l)) as E2. unfold decimal in H. rewrite H in E1. congruence.
Qed.
Lemma numbered_same n k l : numbered n k = numbered n l -> k = l.
Proof. unfold numbered. intros H. apply append_cancel in H. cbn in H. injection H as H. now apply decimal_inj. Qed.
Lemma dir_same n k l : numbered_dir n k = numbered_dir n l -> k = l.
Proof. unfold numbered_dir. intros H. apply append_cancel in H. cbn in H. injection H as H. now apply decimal_inj. Qed.
Lemma append_length a b : String.length (a ++ b) = (String.length a + String.length b)%nat.
Proof. induction a; cbn; congruence. Qed.
Lemma dir_other n k : numbered_dir n k <> n.
Proof. unfold numbered_dir. intros H. apply (f_equal String.length) in H. rewrite !append_length in H. cbn in H. lia. Qed.
Lemma numbered_other n k : numbered n k <> n.
Proof. unfold numbered. intros H. apply (f_equal String.length) in H. rewrite !append_length in H. cbn in H. lia. Qed.

Fixpoint chars (s : string) : list ascii := match s with EmptyString => [] | String c r => c :: chars r end.
Lemma chars_app a b : chars (a ++ b) = chars a ++ chars b.
Proof. induction a; cbn; congruence. Qed.
Lemma digits d : ~ In "_"%char (chars (NilEmpty.string_of_uint d)).
Proof. induction d; cbn; [tauto|..]; intros [H|H]; solve [discriminate|contradiction]. Qed.
Lemma last_mark n m d d' : ~ In "_"%char (chars d) -> ~ In "_"%char (chars d') -> (n ++ "_" ++ d)%string = (m ++ "_" ++ d')%string -> n = m /\ d = d'.
Proof.
  revert m. induction n as [|c n IH]; intros [|c' m] Hd Hd' H; cbn in H.
  - injection H as ->. auto.
  - injection H as <- H. exfalso. apply Hd. rewrite H, chars_app. apply in_or_app. right. now left.
  - injection H as -> H. exfalso. apply Hd'. rewrite <- H, chars_app. apply in_or_app. right. now left.
  - injection H as <- H. destruct (IH m Hd Hd' H) as [-> ->]. auto.
Qed.
Lemma numbered_inj n m k l : numbered n k = numbered m l -> n = m /\ k = l.
Proof. intros H. apply last_mark in H; [|apply digits|apply digits]. destruct H as [-> H]. split; [reflexivity|]. now apply decimal_inj. Qed.

(** All names in one list *)
Fixpoint uniq (fuel : nat) (l : list string) : list string :=
  match fuel, l with
  | S f, n :: r => let (r', k) := renumber n 1 r in (if (k =? 1)%nat then n else numbered n 0) :: uniq f r'
  | _, _ => l
  end.
Lemma renumber_length n : forall l k, length (fst (renumber n k l)) = length l.
Proof.
  induction l as [|x l IH]; intros k; cbn; [reflexivity|]. destruct (String.eqb x n).
  - specialize (IH (S k)). destruct (renumber n (S k) l). cbn in *. congruence.
  - specialize (IH k). destruct (renumber n k l). cbn in *. congruence.
Qed.
Lemma renumber_app n : forall l l' k, renumber n k (l ++ l') =
  let (a, j) := renumber n k l in let (b, i) := renumber n j l' in (a ++ b, i).
Proof.
  induction l as [|x l IH]; intros l' k; cbn; [now destruct (renumber n k l')|]. destruct (String.eqb x n); rewrite IH.
  - destruct (renumber n (S k) l) as [a j]. destruct (renumber n j l') as [b i]. reflexivity.
  - destruct (renumber n k l) as [a j]. destruct (renumber n j l') as [b i]. reflexivity.
Qed.
Lemma renumber_all_flat n : forall hs k, let (hs', j) := renumber_all n k hs in renumber n k (concat hs) = (concat hs', j) /\ map (@length _) hs' = map (@length _) hs.
Proof.
  induction hs as [|h hs IH]; intros k; cbn; [split; reflexivity|]. rewrite renumber_app. pose proof (renumber_length n h k) as Lh.
  destruct (renumber n k h) as [h' j]. specialize (IH j). destruct (renumber_all n j hs) as [hs' i]. destruct IH as [-> E]. cbn in *. split; congruence.
Qed.
Lemma unique_row_flat : forall f names others g, length names = f ->
  (f + length (concat others) <= g)%nat ->
  let (names', others') := unique_row f names others in
  uniq g (names ++ concat others) = names' ++ uniq (g - f) (concat others') /\ length names' = length names /\ map (@length _) others' = map (@length _) others.
Proof.
  induction f as [|f IH]; intros [|n r] others g E Hg; cbn in E; try discriminate; cbn [unique_row].
  - rewrite Nat.sub_0_r. repeat split.
  - unfold unique_step. destruct g as [|g]; [lia|]. cbn [app uniq]. rewrite renumber_app. pose proof (renumber_length n r 1) as Lr.
    destruct (renumber n 1 r) as [r' k]. cbn in Lr. pose proof (renumber_all_flat n others k) as Fo. destruct (renumber_all n k others) as [o' j].
    destruct Fo as [-> Lo]. specialize (IH r' o' g ltac:(lia)).
    assert (Lc : length (concat o') = length (concat others)).
    { clear - Lo. revert others Lo. induction o' as [|a o IH]; intros [|b p] H; cbn in *; try discriminate; [reflexivity|]. injection H as H1 H2.
      rewrite !app_length, (IH p H2), H1. reflexivity. }
    specialize (IH ltac:(lia)). destruct (unique_row f r' o') as [r'' o'']. destruct IH as (E1 & E2 & E3). rewrite E1. cbn [length app]. repeat split; [lia|congruence].
Qed.
Lemma sum_lengths {X} (a b : list (list X)) : map (@length _) a = map (@length _) b -> length (concat a) = length (concat b).
Proof. revert b. induction a as [|x a IH]; intros [|y b] H; cbn in *; try discriminate; [reflexivity|]. injection H as H1 H2. rewrite !app_length, (IH b H2), H1. reflexivity. Qed.
Lemma unique_all_flat : forall f hs, length hs = f ->
  concat (unique_all f hs) = uniq (length (concat hs)) (concat hs) /\ map (@length _) (unique_all f hs) = map (@length _) hs.
Proof.
  induction f as [|f IH]; intros [|h t] E; cbn in E; try discriminate; cbn [unique_all]; [split; reflexivity|].
  pose proof (unique_row_flat (length h) h t (length (concat (h :: t))) eq_refl) as R. cbn [concat] in R. rewrite app_length in R. specialize (R (le_n _)).
  destruct (unique_row (length h) h t) as [h' t']. destruct R as (R1 & R2 & R3). cbn [concat map]. rewrite app_length, R1.
  assert (Lt : length t' = f) by (apply (f_equal (@length _)) in R3; rewrite !map_length in R3; lia).
  destruct (IH t' Lt) as [I1 I2]. rewrite I1. split; [|congruence]. do 2 f_equal. rewrite (sum_lengths _ _ R3). lia.
Qed.

(** The state of the remaining names while the loop runs: P are the names already handled, seen those in front *)
Notation occ := (count_occ string_dec).
Fixpoint cur (P seen l : list string) : list string :=
  match l with
  | [] => []
  | n :: r => (if in_dec string_dec n P then numbered n (occ seen n) else n) :: cur P (seen ++ [n]) r
  end.
Fixpoint goal (whole seen l : list string) : list string :=
  match l with [] => [] | n :: r => (if (occ whole n =? 1)%nat then n else numbered n (occ seen n)) :: goal whole (seen ++ [n]) r end.
Lemma cur_In P : forall l seen v, In v (cur P seen l) -> (In v l /\ ~ In v P) \/ (exists m k, In m l /\ In m P /\ v = numbered m k /\ (occ seen m <= k)%nat).
Proof.
  induction l as [|n r IH]; intros seen v; cbn; [tauto|]. intros [H|H].
  - destruct (in_dec string_dec n P) as [C|C]; [right; exists n, (occ seen n); auto|left; subst; auto].
  - apply IH in H. destruct H as [[H H']|(m & k & H1 & H2 & H3 & H4)]; [auto|]. right. exists m, k. repeat split; auto. rewrite count_occ_app in H4. lia.
Qed.
Lemma renumber_none n : forall l k, ~ In n l -> renumber n k l = (l, k).
Proof.
  induction l as [|x l IH]; intros k H; cbn in *; [reflexivity|]. destruct (String.eqb x n) eqn:E; [apply String.eqb_eq in E; tauto|].
  rewrite IH by tauto. reflexivity.
Qed.
Lemma occ_snoc l n m : occ (l ++ [n]) m = (occ l m + if string_dec n m then 1 else 0)%nat.
Proof. rewrite count_occ_app. cbn. destruct (string_dec n m); reflexivity. Qed.
Lemma cur_same P n : In n P -> forall l seen, cur (P ++ [n]) seen l = cur P seen l.
Proof.
  intros H. induction l as [|m r IH]; intros seen; cbn; [reflexivity|]. rewrite IH. f_equal.
  destruct (in_dec string_dec m P) as [C|C], (in_dec string_dec m (P ++ [n])) as [C'|C']; try reflexivity.
  - exfalso. apply C'. apply in_or_app. auto.
  - exfalso. apply in_app_or in C'. destruct C' as [C'|[<-|[]]]; auto.
Qed.
Lemma renumber_cur P n : ~ In n P -> forall l seen, (forall m k, In m l -> In m P -> numbered m k <> n) ->
  renumber n (occ seen n) (cur P seen l) = (cur (P ++ [n]) seen l, (occ seen n + occ l n)%nat).
Proof.
  intros Hn. induction l as [|m r IH]; intros seen Hm; cbn [cur renumber count_occ]; [now rewrite Nat.add_0_r|].
  assert (K : forall k, renumber n k (cur P (seen ++ [m]) r) = (cur (P ++ [n]) (seen ++ [m]) r, (occ (seen ++ [m]) n + occ r n)%nat) \/ k <> occ (seen ++ [m]) n).
  { intros k. destruct (Nat.eq_dec k (occ (seen ++ [m]) n)) as [->|]; [left|now right]. apply IH. intros m' k' H. apply Hm. now right. }
  rewrite occ_snoc in K. destruct (string_dec m n) as [->|Hmn].
  - destruct (in_dec string_dec n P) as [C|C]; [contradiction|]. rewrite String.eqb_refl.
    destruct (in_dec string_dec n (P ++ [n])) as [C'|C']; [|exfalso; apply C'; apply in_or_app; right; now left].
    destruct (K (S (occ seen n))) as [->|F]; [|lia]. f_equal. lia.
  - assert (NE : String.eqb (if in_dec string_dec m P then numbered m (occ seen m) else m) n = false).
    { apply String.eqb_neq. destruct (in_dec string_dec m P) as [C|C]; [apply Hm; [now left|exact C]|exact Hmn]. }
    rewrite NE. destruct (K (occ seen n)) as [->|F]; [|lia]. f_equal; [|lia]. f_equal.
    destruct (in_dec string_dec m P) as [C|C], (in_dec string_dec m (P ++ [n])) as [C'|C']; try reflexivity.
    + exfalso. apply C'. apply in_or_app. auto.
    + exfalso. apply in_app_or in C'. destruct C' as [C'|[C'|[]]]; [auto|congruence].
Qed.
Lemma uniq_goal whole : (forall m k, (2 <= occ whole m)%nat -> ~ In (numbered m k) whole) ->
  forall l P f, whole = P ++ l -> length l = f -> uniq f (cur P P l) = goal whole P l.
Proof.
  intros HW. induction l as [|n r IH]; intros P f EW Ef; cbn [length] in Ef; subst f; [reflexivity|]. cbn [cur uniq goal].
  assert (two : forall m, In m P -> In m (n :: r) -> (2 <= occ whole m)%nat).
  { intros m H1 H2. rewrite EW, count_occ_app. apply (count_occ_In string_dec) in H1, H2. lia. }
  assert (Hnw : In n whole) by (rewrite EW; apply in_or_app; right; now left).
  specialize (IH (P ++ [n]) (length r)). rewrite <- app_assoc in IH. specialize (IH EW eq_refl).
  destruct (in_dec string_dec n P) as [C|C].
  - rewrite renumber_none.
    + cbn [Nat.eqb]. rewrite cur_same in IH by exact C. rewrite IH. f_equal.
      pose proof (two n C (or_introl eq_refl)). destruct (occ whole n =? 1)%nat eqn:E; [apply Nat.eqb_eq in E; lia|reflexivity].
    + intros H. apply cur_In in H. destruct H as [[H _]|(m & k & H1 & H2 & H3 & H4)].
      * apply (HW n (occ P n)); [apply two; [exact C|now left]|]. rewrite EW. apply in_or_app. right. now right.
      * apply numbered_inj in H3. destruct H3 as [<- H3]. rewrite occ_snoc in H4. destruct (string_dec n n); [lia|contradiction].
  - assert (Z : occ P n = 0%nat) by now apply count_occ_not_In.
    replace 1%nat with (occ (P ++ [n]) n) at 1 by (rewrite occ_snoc, Z; destruct (string_dec n n); [reflexivity|contradiction]).
    rewrite renumber_cur; [|exact C|].
    + rewrite IH. f_equal. rewrite Z. rewrite occ_snoc, Z. replace (occ whole n) with (1 + occ r n)%nat.
      2:{ rewrite EW, count_occ_app. cbn. rewrite Z. destruct (string_dec n n); [lia|contradiction]. }
      destruct (string_dec n n); [reflexivity|contradiction].
    + intros m k Hm HP E. apply (HW m k); [apply two; [exact HP|now right]|]. now rewrite E.
Qed.
Lemma cur_nil : forall l seen, cur [] seen l = l.
Proof. induction l as [|n r IH]; intros seen; cbn; [reflexivity|]. now rewrite IH. Qed.
Lemma goal_nth whole : forall l seen i n, nth_error l i = Some n ->
  nth_error (goal whole seen l) i = Some (if (occ whole n =? 1)%nat then n else numbered n (occ (seen ++ firstn i l) n)).
Proof.
  induction l as [|m r IH]; intros seen [|i] n E; cbn in E; try discriminate.
  - injection E as ->. cbn. now rewrite app_nil_r.
  - cbn [goal nth_error firstn]. rewrite (IH _ _ _ E), <- app_assoc. reflexivity.
Qed.
Lemma goal_length whole : forall l seen, length (goal whole seen l) = length l.
Proof. induction l; intros; cbn; congruence. Qed.

Lemma unique_ok hs : (forall m k, (2 <= occ (concat hs) m)%nat -> ~ In (numbered m k) (concat hs)) -> made_unique (concat hs) (concat (MakeUniqueComponentNames hs)).
Proof.
  intros H. unfold MakeUniqueComponentNames. destruct (unique_all_flat _ hs eq_refl) as [-> _].
  assert (E : uniq (length (concat hs)) (concat hs) = goal (concat hs) [] (concat hs)).
  { rewrite <- (cur_nil (concat hs) []) at 2. now apply uniq_goal. }
  rewrite E. split; [apply goal_length|]. intros i n En. rewrite (goal_nth _ _ _ _ _ En). reflexivity.
Qed.
Lemma occ_firstn (l : list string) n : forall i j, (i < j)%nat -> nth_error l i = Some n -> (occ (firstn i l) n < occ (firstn j l) n)%nat.
Proof.
  induction l as [|m r IH]; intros [|i] [|j] H E; cbn in E; try discriminate; try lia.
  - injection E as ->. cbn. destruct (string_dec n n); [lia|contradiction].
  - cbn. specialize (IH i j ltac:(lia) E). destruct (string_dec m n); lia.
Qed.
Lemma made_unique_NoDup l l' : (forall m k, (2 <= occ l m)%nat -> ~ In (numbered m k) l) -> made_unique l l' -> NoDup l'.
Proof.
  intros HW [Hl H]. apply NoDup_nth_error.
  assert (K : forall i j, (i < j < length l')%nat -> nth_error l' i <> nth_error l' j).
  { intros i j Hij E.
    destruct (nth_error l i) as [n|] eqn:En; [|apply nth_error_None in En; lia]. destruct (nth_error l j) as [m|] eqn:Em; [|apply nth_error_None in Em; lia].
    rewrite (H _ _ En), (H _ _ Em) in E. injection E as E.
    assert (In1 : forall a b, nth_error l b = Some a -> (1 <= occ l a)%nat) by (intros a b Q; apply nth_error_In in Q; apply (count_occ_In string_dec) in Q; lia).
    assert (two : n = m -> (2 <= occ l n)%nat).
    { intros <-. pose proof (occ_firstn l n i j ltac:(lia) En). rewrite <- (firstn_skipn j l), count_occ_app.
      assert (In n (skipn j l)). { apply nth_error_In with 0%nat. rewrite <- Em. rewrite <- (firstn_skipn j l) at 2. rewrite nth_error_app2 by (rewrite firstn_length; lia). f_equal. rewrite firstn_length. lia. }
      apply (count_occ_In string_dec) in H1. lia. }
    unfold occurrences in E. destruct (Nat.eqb_spec (occ l n) 1) as [E1|E1], (Nat.eqb_spec (occ l m) 1) as [E2|E2].
    - specialize (two E). lia.
    - pose proof (In1 _ _ Em). apply (HW m (occ (firstn j l) m)); [lia|]. apply nth_error_In in En. rewrite E in En. exact En.
    - pose proof (In1 _ _ En). apply (HW n (occ (firstn i l) n)); [lia|]. apply nth_error_In in Em. rewrite <- E in Em. exact Em.
    - apply (numbered_inj n m) in E. destruct E as [<- E]. pose proof (occ_firstn l n i j ltac:(lia) En). lia. }
  intros i j Hi E. destruct (Nat.lt_trichotomy i j) as [C|[C|C]]; [|exact C|].
  - exfalso. apply (K i j); [|exact E]. split; [exact C|]. apply nth_error_Some. rewrite <- E. now apply nth_error_Some.
  - exfalso. apply (K j i); [lia|now symmetry].
Qed.

(** Directories *)
Definition inv (base : string) (c : nat) (ms : list (string * bool)) : Prop :=
  Forall (fun sb => snd sb = true -> exists k, (k < c)%nat /\ fst sb = numbered_dir base k) ms.
Definition unmarked (ms : list (string * bool)) : nat := length (filter (fun sb => negb (snd sb)) ms).
Definition fresh (base dir : string) (c : nat) : Prop := forall k, (k < c)%nat -> dir <> numbered_dir base k.
Lemma inv_le base c c' ms : (c <= c')%nat -> inv base c ms -> inv base c' ms.
Proof. intros H. apply Forall_impl. intros [s b] K E. destruct (K E) as (k & Hk & E'). exists k. split; [lia|exact E']. Qed.
Lemma pass_marks base : forall ms dir c, inv base c ms -> fresh base dir c ->
  let '(l, d, c', m) := add_pass base (map fst ms) dir c in
  exists ms', map fst ms' = l /\ inv base c' ms' /\ fresh base d c' /\ (c <= c')%nat /\ (unmarked ms' + (if m then 1 else 0) <= unmarked ms)%nat /\ length ms' = length ms /\
    (m = false -> l = map fst ms /\ d = dir /\ ~ In dir l).
Proof.
  induction ms as [|[s b] ms IH]; intros dir c HI HF; cbn [map fst add_pass].
  - exists []. split; [reflexivity|]. split; [constructor|]. split; [exact HF|]. split; [lia|]. split; [cbn; lia|]. split; [reflexivity|]. cbn. auto.
  - apply Forall_cons_iff in HI. destruct HI as [Hs HI]. cbn in Hs. destruct (String.eqb s dir) eqn:E.
    + apply String.eqb_eq in E. subst s.
      assert (b = false) as ->. { destruct b; [|reflexivity]. destruct (Hs eq_refl) as (k & Hk & Ek). exfalso. exact (HF k Hk Ek). }
      specialize (IH (numbered_dir base (S c)) (S c) (inv_le _ _ _ _ (Nat.le_succ_diag_r c) HI)).
      assert (F : fresh base (numbered_dir base (S c)) (S c)) by (intros k Hk Q; apply dir_same in Q; lia). specialize (IH F).
      destruct (add_pass base (map fst ms) (numbered_dir base (S c)) (S c)) as [[[l d] c'] m]. destruct IH as (ms' & <- & I' & F' & L' & U' & N' & _).
      exists ((numbered_dir base c, true) :: ms'). split; [reflexivity|]. split; [constructor; [intros _; exists c; split; [lia|reflexivity]|exact I']|].
      split; [exact F'|]. split; [lia|]. split; [unfold unmarked in *; cbn; destruct m; lia|]. split; [cbn; congruence|discriminate].
    + apply String.eqb_neq in E. specialize (IH dir c HI HF).
      destruct (add_pass base (map fst ms) dir c) as [[[l d] c'] m]. destruct IH as (ms' & <- & I' & F' & L' & U' & M' & N').
      exists ((s, b) :: ms'). split; [reflexivity|]. split; [constructor; [intros Q; destruct (Hs Q) as (k & Hk & Ek); exists k; split; [lia|exact Ek]|exact I']|].
      split; [exact F'|]. split; [exact L'|]. split; [unfold unmarked in *; cbn; destruct b; cbn; lia|]. split; [cbn; congruence|].
      intros Hm. destruct (N' Hm) as (N1 & N2 & N3). cbn. split; [congruence|]. split; [exact N2|]. intros [Q|Q]; [contradiction|exact (N3 Q)].
Qed.
Lemma loop_marks base : forall f ms dir c, (unmarked ms < f)%nat -> inv base c ms -> fresh base dir c ->
  exists l d, add_loop f base (map fst ms) dir c = Some (l, d) /\ ~ In d l /\ length l = length ms.
Proof.
  induction f as [|f IH]; intros ms dir c Hf HI HF; [lia|]. cbn [add_loop]. pose proof (pass_marks base ms dir c HI HF) as P.
  destruct (add_pass base (map fst ms) dir c) as [[[l d] c'] m]. destruct P as (ms' & <- & I' & F' & L' & U' & M' & N'). destruct m.
  - destruct (IH ms' d c' ltac:(lia) I' F') as (l & d' & E & H1 & H2). exists l, d'. split; [exact E|]. split; [exact H1|congruence].
  - destruct (N' eq_refl) as (N1 & N2 & N3). exists (map fst ms'), d. split; [reflexivity|]. split; [congruence|]. rewrite map_length. exact M'.
Qed.
Lemma add_total dirs base : exists others d, AddSnapshot dirs base = Some (others ++ [d]) /\ length others = length dirs /\ ~ In d others.
Proof.
  unfold AddSnapshot. set (ms := map (fun s : string => (s, false)) (dirs ++ [EmptyString])).
  assert (E : dirs ++ [EmptyString] = map fst ms) by (unfold ms; rewrite map_map; cbn; now rewrite map_id).
  assert (U : (unmarked ms <= length ms)%nat) by (unfold unmarked; clear; induction ms as [|[a b] r IH]; cbn; [lia|]; destruct b; cbn; lia).
  assert (L : length ms = S (length dirs)) by (unfold ms; rewrite map_length, app_length; cbn; lia).
  destruct (loop_marks base (S (S (length dirs))) ms base 0) as (l & d & El & Hd & Hl).
  - lia.
  - unfold ms. clear. induction (dirs ++ [EmptyString]); cbn; constructor; [discriminate|assumption].
  - intros k Hk. lia.
  - rewrite E, El. exists (removelast l), d. split; [reflexivity|]. destruct (exists_last (l := l)) as (l0 & x & ->); [destruct l; cbn in *; [lia|discriminate]|].
    rewrite removelast_last. rewrite app_length in Hl. cbn in Hl. split; [lia|]. intros H. apply Hd. apply in_or_app. now left.
Qed.
Lemma pass_none base : forall l dir c, ~ In dir l -> add_pass base l dir c = (l, dir, c, false).
Proof.
  induction l as [|s l IH]; intros dir c H; cbn in *; [reflexivity|]. destruct (String.eqb s dir) eqn:E; [apply String.eqb_eq in E; tauto|].
  rewrite IH by tauto. reflexivity.
Qed.
Lemma pass_one base l1 l2 c : ~ In base l1 -> ~ In (numbered_dir base (S c)) l2 ->
  add_pass base (l1 ++ base :: l2) base c = (l1 ++ numbered_dir base c :: l2, numbered_dir base (S c), S c, true).
Proof.
  induction l1 as [|s l IH]; intros H1 H2; cbn [app add_pass].
  - rewrite String.eqb_refl, pass_none by exact H2. reflexivity.
  - cbn in H1. destruct (String.eqb s base) eqn:E; [apply String.eqb_eq in E; tauto|]. rewrite IH by tauto. reflexivity.
Qed.
Lemma add_simple dirs base : base <> EmptyString -> NoDup dirs -> (forall k, ~ In (numbered_dir base k) dirs) ->
  exists dirs', AddSnapshot dirs base = Some dirs' /\ NoDup dirs' /\
    dirs' = if in_dec string_dec base dirs then map (fun d => if string_dec d base then numbered_dir base 0 else d) dirs ++ [numbered_dir base 1] else dirs ++ [base].
Proof.
  intros Hb Hn Hk. unfold AddSnapshot. destruct (in_dec string_dec base dirs) as [C|C].
  - apply in_split in C. destruct C as (l1 & l2 & ->). apply NoDup_remove in Hn. destruct Hn as [Hn Hi].
    assert (H1 : ~ In base l1) by (intros Q; apply Hi, in_or_app; auto). assert (H2 : ~ In base l2) by (intros Q; apply Hi, in_or_app; auto).
    assert (K : forall k l, (forall x, In x l -> In x (l1 ++ base :: l2)) -> ~ In (numbered_dir base k) l) by (intros k l Q R; exact (Hk k (Q _ R))).
    assert (E0 : forall k, numbered_dir base k <> EmptyString) by (intros k Q; unfold numbered_dir in Q; apply (f_equal String.length) in Q; rewrite append_length in Q; cbn in Q; lia).
    rewrite app_length. cbn [length]. rewrite <- app_assoc. cbn [app add_loop].
    assert (N0 : ~ In (numbered_dir base 1) (l2 ++ [EmptyString])).
    { intros Q. apply in_app_or in Q. destruct Q as [Q|[Q|[]]]; [exact (Hk 1%nat ltac:(apply in_or_app; right; right; exact Q))|symmetry in Q; exact (E0 1%nat Q)]. }
    rewrite pass_one by assumption.
    replace (length l1 + S (length l2))%nat with (S (length l1 + length l2)) by lia. cbn [add_loop].
    assert (N1 : ~ In (numbered_dir base 1) (l1 ++ numbered_dir base 0 :: l2 ++ [EmptyString])).
    { intros Q. apply in_app_or in Q. destruct Q as [Q|[Q|Q]]; [exact (Hk 1%nat ltac:(apply in_or_app; left; exact Q))|apply dir_same in Q; discriminate|].
      apply in_app_or in Q. destruct Q as [Q|[Q|[]]]; [exact (Hk 1%nat ltac:(apply in_or_app; right; right; exact Q))|symmetry in Q; exact (E0 1%nat Q)]. }
    rewrite pass_none by exact N1. eexists. split; [reflexivity|].
    assert (Em : forall l, ~ In base l -> map (fun d => if string_dec d base then numbered_dir base 0 else d) l = l).
    { clear. induction l as [|a l IH]; intros H; cbn in *; [reflexivity|]. destruct (string_dec a base); [tauto|]. rewrite IH by tauto. reflexivity. }
    assert (El : removelast (l1 ++ numbered_dir base 0 :: l2 ++ [EmptyString]) = l1 ++ numbered_dir base 0 :: l2).
    { change (l1 ++ numbered_dir base 0 :: l2 ++ [EmptyString]) with (l1 ++ (numbered_dir base 0 :: l2) ++ [EmptyString]). rewrite app_assoc. apply removelast_last. }
    rewrite El. rewrite map_app. cbn [map]. rewrite !Em by assumption. destruct (string_dec base base) as [_|Q]; [|contradiction].
    split; [|reflexivity].
    assert (Nd : NoDup (l1 ++ numbered_dir base 0 :: l2)).
    { apply (Permutation.Permutation_NoDup (l := numbered_dir base 0 :: l1 ++ l2)); [apply Permutation.Permutation_middle|].
      constructor; [|exact Hn]. intros Q. apply (Hk 0%nat). apply in_app_or in Q. apply in_or_app. destruct Q; [now left|right; now right]. }
    apply (Permutation.Permutation_NoDup (l := numbered_dir base 1 :: l1 ++ numbered_dir base 0 :: l2)); [apply Permutation.Permutation_cons_append|].
    constructor; [|exact Nd]. intros Q. apply N1. apply in_app_or in Q. apply in_or_app. destruct Q as [Q|[Q|Q]]; [now left|right; now left|right; right; apply in_or_app; now left].
  - cbn [add_loop]. rewrite pass_none.
    + rewrite removelast_last. eexists. split; [reflexivity|]. split; [|reflexivity].
      apply (Permutation.Permutation_NoDup (l := base :: dirs)); [apply Permutation.Permutation_cons_append|]. now constructor.
    + intros Q. apply in_app_or in Q. destruct Q as [Q|[Q|[]]]; [contradiction|]. apply Hb. now symmetry.
Qed.
