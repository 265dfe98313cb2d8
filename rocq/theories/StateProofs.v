(** Lemmas about the buffer and component functions of StateModel. *)
From Coq Require Import String.
From Coq Require Import List ZArith Lia Bool FinFun.
From Verif Require Import ArrayModel ArraySpec ArrayProofs StateModel StateSpec.
Import ListNotations.

Lemma total_cons d ds : total (d :: ds) = (depth_value d + total ds)%nat.
Proof. destruct d; reflexivity. Qed.

Lemma values_cons {X} (v : variable X) s :
  values (v :: s) = (match v with VarScalar x => [x] | VarVector xs => xs end) ++ values s.
Proof. reflexivity. Qed.

Lemma of_depth_components {X} d (v : variable X) : of_depth d v -> var_components v = depth_value d.
Proof. destruct d, v; simpl; intros H; try contradiction; congruence. Qed.

Lemma values_length {X} ds (s : state X) : of_depths ds s -> length (values s) = total ds.
Proof.
  induction 1 as [|d v ds s Hd _ IH]; [reflexivity|].
  rewrite values_cons, app_length, IH, total_cons.
  destruct d, v; simpl in Hd; try contradiction; cbn [length depth_value]; lia.
Qed.

Lemma app_inj_length {X} (a b c d : list X) : length a = length b -> a ++ c = b ++ d -> a = b /\ c = d.
Proof.
  revert b; induction a as [|x a IH]; intros [|y b] H E; try discriminate; [split; [reflexivity|exact E]|].
  injection E as -> E. destruct (IH b ltac:(simpl in H; lia) E) as [-> ->]. split; reflexivity.
Qed.

Lemma of_depths_ext {X} ds (s t : state X) : of_depths ds s -> of_depths ds t -> values s = values t -> s = t.
Proof.
  intros Hs; revert t; induction Hs as [|d v ds s Hd _ IH]; intros t Ht E.
  - inversion Ht. reflexivity.
  - inversion Ht as [|d' w ds' t' Hw Ht' E1 E2]; subst. rewrite !values_cons in E.
    destruct d, v, w; simpl in Hd, Hw; try contradiction.
    + injection E as -> E. f_equal. apply IH; assumption.
    + destruct (app_inj_length xs xs0 (values s) (values t') ltac:(congruence) E) as [-> E2].
      f_equal. apply IH; assumption.
Qed.

(** ** Loops *)

Lemma ofold_app {A B} (f : A -> B -> option A) l1 l2 a :
  ofold f (l1 ++ l2) a = obind (ofold f l1 a) (ofold f l2).
Proof. revert a; induction l1 as [|b l1 IH]; intros a; simpl; [reflexivity|]. destruct (f a b); simpl; auto. Qed.

Lemma ofold_ext_in {A B} (f g : A -> B -> option A) l a :
  (forall x b, In b l -> f x b = g x b) -> ofold f l a = ofold g l a.
Proof.
  revert a; induction l as [|b l IH]; intros a H; simpl; [reflexivity|].
  rewrite H by (left; reflexivity). destruct (g a b) as [a'|]; [|reflexivity].
  simpl. apply IH. intros; apply H; right; assumption.
Qed.

Lemma assign_app {X} (pre r : list X) x v : assign (pre ++ x :: r) (length pre) v = Some (pre ++ v :: r).
Proof. induction pre as [|y pre IH]; simpl; [reflexivity|]. rewrite IH. reflexivity. Qed.

Lemma assign_none {X} (l : list X) k v : (length l <= k)%nat -> assign l k v = None.
Proof.
  revert k; induction l as [|x l IH]; intros [|k] H; simpl in *; try reflexivity; try lia.
  rewrite IH by lia. reflexivity.
Qed.

Lemma assign_split {X} (l : list X) k v : (k < length l)%nat -> assign l k v = Some (firstn k l ++ v :: skipn (S k) l).
Proof.
  revert k; induction l as [|x l IH]; intros [|k] H; simpl in *; try lia; [reflexivity|].
  rewrite IH by lia. reflexivity.
Qed.

(** A loop which replaces the entries of a list one after the other. *)
Lemma ofold_fill_from {A X} (F : A -> nat -> option A) (enc : list X -> nat -> A) (h : nat -> X -> X) (l : list X) :
  (forall pre x r, (length pre + S (length r) = length l)%nat -> nth_error l (length pre) = Some x ->
     F (enc (pre ++ x :: r) (length pre)) (length pre) = Some (enc (pre ++ h (length pre) x :: r) (S (length pre)))) ->
  forall rest done pre, l = done ++ rest -> length pre = length done ->
  ofold F (seq (length pre) (length rest)) (enc (pre ++ rest) (length pre)) =
  Some (enc (pre ++ map2 h (seq (length pre) (length rest)) rest) (length pre + length rest)%nat).
Proof.
  intros H. induction rest as [|x rest IH]; intros done pre El Hl.
  - simpl. rewrite Nat.add_0_r. reflexivity.
  - cbn [length seq ofold]. rewrite H; [|rewrite El, app_length; simpl; lia|].
    2:{ rewrite El, Hl, nth_error_app2, Nat.sub_diag by lia. reflexivity. }
    cbn [obind].
    specialize (IH (done ++ [x]) (pre ++ [h (length pre) x])). rewrite !app_length in IH. cbn [length] in IH.
    replace (length pre + 1)%nat with (S (length pre)) in IH by lia.
    rewrite <- !app_assoc in IH. cbn [app] in IH. rewrite IH by (assumption || lia).
    replace (length pre + S (length rest))%nat with (S (length pre) + length rest)%nat by lia.
    reflexivity.
Qed.

Lemma ofold_fill {A X} (F : A -> nat -> option A) (enc : list X -> nat -> A) (h : nat -> X -> X) (l : list X) a b :
  (forall pre x r, (length pre + S (length r) = length l)%nat -> nth_error l (length pre) = Some x ->
     F (enc (pre ++ x :: r) (length pre)) (length pre) = Some (enc (pre ++ h (length pre) x :: r) (S (length pre)))) ->
  a = enc l O -> b = enc (map2 h (seq 0 (length l)) l) (length l) ->
  ofold F (seq 0 (length l)) a = Some b.
Proof. intros H -> ->. exact (ofold_fill_from F enc h l H l [] [] eq_refl eq_refl). Qed.

Lemma ofold_fill0 {A X} (F : A -> nat -> option A) (enc : list X -> nat -> A) (h : nat -> X -> X) (l : list X) a b :
  (forall pre x r, (length pre + S (length r) = length l)%nat ->
     F (enc (pre ++ x :: r) (length pre)) (length pre) = Some (enc (pre ++ h (length pre) x :: r) (S (length pre)))) ->
  a = enc l O -> b = enc (map2 h (seq 0 (length l)) l) (length l) ->
  ofold F (seq 0 (length l)) a = Some b.
Proof. intros H. apply ofold_fill. intros pre x r Hr _. apply H. exact Hr. Qed.

Lemma map2_const {A B} (f : nat -> B) n (l : list A) : length l = n -> map2 (fun i (_ : A) => f i) (seq 0 n) l = map f (seq 0 n).
Proof.
  generalize 0%nat as k. revert n. induction l as [|x l IH]; intros n k Hl; simpl in Hl; subst n; [reflexivity|].
  cbn [length seq]. unfold map2 in *. cbn [combine map fst snd]. f_equal. apply IH. reflexivity.
Qed.

Lemma ofold_none {A B} (f : A -> B -> option A) l1 b l2 a a' :
  ofold f l1 a = Some a' -> f a' b = None -> ofold f (l1 ++ b :: l2) a = None.
Proof. intros H1 H2. rewrite ofold_app, H1. simpl. rewrite H2. reflexivity. Qed.

(** ** CopyFromBuffer *)

Lemma skipn_nth {X} (l : list X) k d : (k < length l)%nat -> skipn k l = nth k l d :: skipn (S k) l.
Proof. revert k; induction l as [|x l IH]; intros [|k] H; simpl in *; try lia; [reflexivity|]. apply IH. lia. Qed.

Lemma map_nth_slice {X} (l : list X) d c n :
  (c + n <= length l)%nat -> map (fun i => nth (c + i) l d) (seq 0 n) = firstn n (skipn c l).
Proof.
  revert c; induction n as [|n IH]; intros c H; [reflexivity|].
  rewrite (skipn_nth l c d) by lia. cbn [firstn seq map]. rewrite Nat.add_0_r. f_equal.
  rewrite <- seq_shift, map_map. rewrite <- (IH (S c)) by lia. apply map_ext. intros i. f_equal. lia.
Qed.

Lemma copy_from_variable_some {X} (buffer : list X) d v comp :
  of_depth d v -> (comp + depth_value d <= length buffer)%nat ->
  exists v', copy_from_variable buffer v comp = Some (v', (comp + depth_value d)%nat) /\ of_depth d v' /\
    values [v'] = firstn (depth_value d) (skipn comp buffer).
Proof.
  intros Hd Hl. unfold copy_from_variable. destruct d as [|n], v as [x|xs]; simpl in Hd; try contradiction.
  - cbn [var_components seq ofold obind depth_value fst snd] in *.
    destruct (nth_error buffer comp) as [y|] eqn:E; [|apply nth_error_None in E; lia].
    simpl. exists (VarScalar y). split; [reflexivity|]. split; [exact I|].
    rewrite (skipn_nth buffer comp y) by lia. simpl. rewrite (nth_error_nth _ _ _ E). reflexivity.
  - subst n. cbn [var_components depth_value] in *.
    destruct xs as [|x0 xs0] eqn:Ex.
    { exists (VarVector []). simpl. rewrite Nat.add_0_r. repeat split. }
    rewrite <- Ex in *.
    exists (VarVector (map (fun i => nth (comp + i) buffer x0) (seq 0 (length xs)))).
    split; [|split; [simpl; rewrite map_length, seq_length; reflexivity|]].
    + apply (ofold_fill0 _ (fun l k => (VarVector l, (comp + k)%nat)) (fun i _ => nth (comp + i) buffer x0)).
      * intros pre x r Hr. cbn [fst snd].
        rewrite (nth_error_nth' buffer x0) by lia. cbn [obind var_assign].
        rewrite assign_app. cbn [option_map obind]. f_equal. f_equal. lia.
      * rewrite Nat.add_0_r. reflexivity.
      * rewrite map2_const by reflexivity. reflexivity.
    + simpl. rewrite app_nil_r. apply map_nth_slice. exact Hl.
Qed.

(** the loop up to the point where the buffer ends *)
Lemma copy_from_variable_none {X} (buffer : list X) v comp :
  (comp <= length buffer)%nat -> (length buffer < comp + var_components v)%nat ->
  copy_from_variable buffer v comp = None.
Proof.
  intros H0 H. unfold copy_from_variable.
  assert (forall n k w c, (c + n > length buffer)%nat -> (c <= length buffer)%nat ->
    ofold (fun (acc : variable X * nat) i =>
           obind (nth_error buffer (snd acc)) (fun x =>
           obind (var_assign (fst acc) i x) (fun v' => Some (v', (snd acc + 1)%nat)))) (seq k n) (w, c) = None) as G.
  { induction n as [|n IH]; intros k w c H1 H2; [lia|]. cbn [seq ofold fst snd].
    destruct (nth_error buffer c) as [x|] eqn:E; [|reflexivity]. cbn [obind].
    destruct (var_assign w k x) as [w'|]; [|reflexivity]. cbn [obind].
    apply IH; [lia|]. assert (nth_error buffer c <> None) as E' by congruence. apply nth_error_Some in E'. lia. }
  apply G; lia.
Qed.

Lemma copy_from_some {X} (buffer : list X) ds s : of_depths ds s -> forall comp,
  (comp + total ds <= length buffer)%nat ->
  exists s', copy_from buffer s comp = Some (s', (comp + total ds)%nat) /\ of_depths ds s' /\
    values s' = firstn (total ds) (skipn comp buffer).
Proof.
  induction 1 as [|d v ds s Hd _ IH]; intros comp Hl.
  - exists []. simpl. unfold total. simpl. rewrite Nat.add_0_r. repeat split. constructor.
  - rewrite total_cons in *.
    destruct (copy_from_variable_some buffer d v comp Hd ltac:(lia)) as (v' & E1 & D1 & V1).
    destruct (IH (comp + depth_value d)%nat ltac:(lia)) as (s' & E2 & D2 & V2).
    exists (v' :: s'). cbn [copy_from]. rewrite E1. cbn [obind fst snd]. rewrite E2. cbn [obind fst snd].
    split; [f_equal; f_equal; lia|]. split; [constructor; assumption|].
    change (v' :: s') with ([v'] ++ s'). unfold values in *. rewrite flat_map_app, V1, V2.
    set (l := skipn comp buffer).
    assert (skipn (comp + depth_value d) buffer = skipn (depth_value d) l) as ->.
    { unfold l. clear. revert buffer; induction comp as [|c IHc]; intros b; [reflexivity|].
      destruct b; simpl; [rewrite !skipn_nil; reflexivity|apply IHc]. }
    generalize l; clear. induction (depth_value d) as [|k IHk]; intros l; [reflexivity|].
    destruct l; simpl; [rewrite !firstn_nil; reflexivity|]. rewrite IHk. reflexivity.
Qed.

Lemma copy_from_none {X} (buffer : list X) ds s : of_depths ds s -> forall comp,
  (comp <= length buffer)%nat -> (length buffer < comp + total ds)%nat -> copy_from buffer s comp = None.
Proof.
  induction 1 as [|d v ds s Hd _ IH]; intros comp H0 Hl.
  - unfold total in Hl. simpl in Hl. lia.
  - rewrite total_cons in *. cbn [copy_from].
    destruct (Nat.le_gt_cases (comp + depth_value d) (length buffer)) as [L|L].
    + destruct (copy_from_variable_some buffer d v comp Hd L) as (v' & E1 & _). rewrite E1. cbn [obind fst snd].
      rewrite IH by lia. reflexivity.
    + rewrite copy_from_variable_none; [reflexivity|assumption|]. rewrite (of_depth_components d) by assumption. lia.
Qed.

(** ** CopyToBuffer *)

Lemma copy_to_variable_some {X} (pre mid post : list X) d v :
  of_depth d v -> length mid = depth_value d ->
  copy_to_variable (pre ++ mid ++ post) v (length pre) =
  Some (pre ++ values [v] ++ post, (length pre + depth_value d)%nat).
Proof.
  intros Hd Hm. unfold copy_to_variable. destruct d as [|n], v as [x|xs]; simpl in Hd; try contradiction.
  - destruct mid as [|y [|]]; try discriminate. cbn. rewrite assign_app. reflexivity.
  - subst n. cbn [depth_value var_components var_at] in *.
    rewrite <- Hm.
    assert (forall done todo, xs = done ++ todo -> forall p m, length m = length todo -> length p = (length pre + length done)%nat ->
      ofold (fun (acc : list X * nat) i =>
           obind (nth_error xs i) (fun x =>
           obind (assign (fst acc) (snd acc) x) (fun b => Some (b, (snd acc + 1)%nat))))
        (seq (length done) (length todo)) (p ++ m ++ post, length p) =
      Some (p ++ todo ++ post, (length p + length todo)%nat)) as G.
    { intros done todo; revert done; induction todo as [|t todo IH]; intros done E p m Lm Lp.
      - destruct m; [|discriminate]. simpl. rewrite Nat.add_0_r. reflexivity.
      - destruct m as [|y m]; [discriminate|]. cbn [length seq ofold fst snd].
        rewrite E at 1. rewrite nth_error_app2, Nat.sub_diag by lia. cbn [nth_error obind app].
        rewrite assign_app. cbn [obind].
        specialize (IH (done ++ [t])). rewrite <- app_assoc in IH. specialize (IH E (p ++ [t]) m).
        rewrite !app_length in IH. cbn [length] in IH.
        replace (length done + 1)%nat with (S (length done)) in IH by lia.
        rewrite <- !app_assoc in IH. cbn [app] in IH. cbn [length] in Lm.
        rewrite IH by lia. f_equal. f_equal. lia. }
    specialize (G [] xs eq_refl pre mid Hm). cbn [length] in G. rewrite Hm.
    rewrite G by lia. simpl. rewrite app_nil_r. reflexivity.
Qed.

Lemma copy_to_some {X} ds (s : state X) : of_depths ds s -> forall pre mid post,
  length mid = total ds ->
  copy_to (pre ++ mid ++ post) s (length pre) = Some (pre ++ values s ++ post, (length pre + total ds)%nat).
Proof.
  induction 1 as [|d v ds s Hd Hs IH]; intros pre mid post Hm.
  - destruct mid; [|discriminate]. unfold total. simpl. rewrite Nat.add_0_r. reflexivity.
  - rewrite total_cons in *. cbn [copy_to].
    rewrite <- (firstn_skipn (depth_value d) mid) at 1. rewrite <- app_assoc.
    assert (length (firstn (depth_value d) mid) = depth_value d) as L by (rewrite firstn_length; lia).
    rewrite (copy_to_variable_some _ _ _ d) by assumption. cbn [obind fst snd].
    assert (length (values [v]) = depth_value d) as Lv.
    { rewrite <- (of_depth_components d v) by assumption. destruct v; simpl; rewrite ?app_nil_r; reflexivity. }
    specialize (IH (pre ++ values [v]) (skipn (depth_value d) mid) post).
    rewrite <- !app_assoc, app_length, Lv in IH.
    rewrite IH by (rewrite skipn_length; lia).
    f_equal. f_equal; [|lia]. change (v :: s) with ([v] ++ s). unfold values. rewrite flat_map_app, <- !app_assoc. reflexivity.
Qed.

Lemma assign_length {X} (l l' : list X) k v : assign l k v = Some l' -> length l' = length l.
Proof.
  revert k l'; induction l as [|x l IH]; intros [|k] l' E; simpl in E; try discriminate.
  - injection E as <-. reflexivity.
  - destruct (assign l k v) eqn:E'; [|discriminate]. injection E as <-. simpl. erewrite IH by eassumption. reflexivity.
Qed.

Lemma copy_to_variable_none {X} (buffer : list X) v comp :
  (comp <= length buffer)%nat -> (length buffer < comp + var_components v)%nat ->
  copy_to_variable buffer v comp = None.
Proof.
  intros H0 H. unfold copy_to_variable.
  assert (forall n k b c, length b = length buffer -> (c + n > length b)%nat -> (c <= length b)%nat ->
    ofold (fun (acc : list X * nat) i =>
           obind (var_at v i) (fun x =>
           obind (assign (fst acc) (snd acc) x) (fun b => Some (b, (snd acc + 1)%nat)))) (seq k n) (b, c) = None) as G.
  { induction n as [|n IH]; intros k b c L H1 H2; [lia|]. cbn [seq ofold fst snd].
    destruct (var_at v k) as [x|]; [|reflexivity]. cbn [obind].
    destruct (assign b c x) as [b'|] eqn:E; [|reflexivity]. cbn [obind].
    pose proof (assign_length _ _ _ _ E) as L'.
    destruct (Nat.eq_dec c (length b)) as [->|Ne]; [rewrite assign_none in E by lia; discriminate|].
    apply IH; lia. }
  apply G; lia.
Qed.

Lemma copy_to_none {X} ds (s : state X) : of_depths ds s -> forall buffer comp,
  (comp <= length buffer)%nat -> (length buffer < comp + total ds)%nat -> copy_to buffer s comp = None.
Proof.
  induction 1 as [|d v ds s Hd _ IH]; intros buffer comp H0 Hl.
  - unfold total in Hl. simpl in Hl. lia.
  - rewrite total_cons in *. cbn [copy_to].
    destruct (Nat.le_gt_cases (comp + depth_value d) (length buffer)) as [L|L].
    + pose proof (copy_to_variable_some (firstn comp buffer) (firstn (depth_value d) (skipn comp buffer))
        (skipn (depth_value d) (skipn comp buffer)) d v Hd) as E.
      rewrite firstn_length, skipn_length in E. rewrite !firstn_skipn in E.
      rewrite firstn_length in E. replace (Nat.min comp (length buffer)) with comp in E by lia.
      rewrite E by lia. cbn [obind fst snd].
      assert (length (values [v]) = depth_value d) as Lv.
      { rewrite <- (of_depth_components d v) by assumption. destruct v; simpl; rewrite ?app_nil_r; reflexivity. }
      apply IH; rewrite !app_length, firstn_length, Lv, !skipn_length; lia.
    + rewrite copy_to_variable_none; [reflexivity|assumption|]. rewrite (of_depth_components d) by assumption. lia.
Qed.

(** ** Component numbers *)

Lemma number_of_components_total ds : GetNumberOfComponents ds = total ds.
Proof.
  unfold GetNumberOfComponents.
  assert (forall l a, fold_left (fun c d => (c + depth_value d)%nat) l a = (a + total l)%nat) as G.
  { induction l as [|d l IH]; intros a; simpl; [unfold total; simpl; lia|]. rewrite IH, total_cons. lia. }
  apply G.
Qed.

Definition step {X} : Z * option X -> variable X * depth -> Z * option X :=
  fun acc vd =>
         let '(counter, found) := acc in
         match vd with
         | (v, ScalarDepth) => ((counter - 1)%Z, if Z.eqb counter 0 then var_at v 0 else found)
         | (v, VectorDepth n) =>
             ((counter - Z.of_nat n)%Z,
              if (Z.leb 0 counter && Z.ltb counter (Z.of_nat n))%bool then var_at v (Z.to_nat counter) else found)
         end.

Lemma step_spec {X} d (v : variable X) c found :
  of_depth d v ->
  step (c, found) (v, d) =
  ((c - Z.of_nat (depth_value d))%Z,
   if (Z.leb 0 c && Z.ltb c (Z.of_nat (depth_value d)))%bool then nth_error (values [v]) (Z.to_nat c) else found).
Proof.
  destruct d as [|n], v as [x|xs]; simpl; intros H; try contradiction.
  - f_equal. destruct (Z.eqb_spec c 0) as [->|]; [reflexivity|].
    destruct (Z.leb_spec 0 c), (Z.ltb_spec c 1); simpl; try reflexivity; lia.
  - rewrite app_nil_r. reflexivity.
Qed.

Lemma component_fold {X} ds (s : state X) : of_depths ds s -> forall c found,
  snd (fold_left step (combine s ds) (c, found)) =
  if (Z.leb 0 c && Z.ltb c (Z.of_nat (total ds)))%bool then nth_error (values s) (Z.to_nat c) else found.
Proof.
  induction 1 as [|d v ds s Hd Hs IH]; intros c found.
  - simpl. destruct (Z.leb_spec 0 c), (Z.ltb_spec c 0); simpl; try reflexivity. lia.
  - cbn [combine fold_left]. rewrite step_spec by assumption. rewrite IH, total_cons.
    assert (length (values [v]) = depth_value d) as Lv.
    { rewrite <- (of_depth_components d v) by assumption. destruct v; simpl; rewrite ?app_nil_r; reflexivity. }
    change (v :: s) with ([v] ++ s). unfold values in *. rewrite flat_map_app.
    destruct (Z.leb_spec 0 c), (Z.ltb_spec c (Z.of_nat (depth_value d))); simpl andb.
    + replace (Z.leb 0 (c - Z.of_nat (depth_value d))) with false by (symmetry; apply Z.leb_gt; lia).
      replace (Z.ltb c (Z.of_nat (depth_value d + total ds))) with true by (symmetry; apply Z.ltb_lt; lia).
      cbn [andb]. rewrite nth_error_app1 by lia. reflexivity.
    + replace (Z.leb 0 (c - Z.of_nat (depth_value d))) with true by (symmetry; apply Z.leb_le; lia).
      cbn [andb]. rewrite nth_error_app2 by lia.
      replace (Z.to_nat c - length (flat_map (fun v0 : variable X => match v0 with
        | VarScalar x => [x] | VarVector xs => xs end) [v]))%nat with (Z.to_nat (c - Z.of_nat (depth_value d))) by lia.
      destruct (Z.ltb_spec (c - Z.of_nat (depth_value d)) (Z.of_nat (total ds))),
        (Z.ltb_spec c (Z.of_nat (depth_value d + total ds))); try reflexivity; lia.
    + replace (Z.leb 0 (c - Z.of_nat (depth_value d))) with false by (symmetry; apply Z.leb_gt; lia). reflexivity.
    + lia.
Qed.

Lemma index_mapping_fold ds : forall (s : state nat) c,
  exists t, fst (fold_left (fun (acc : state nat * nat) d =>
         match d with
         | ScalarDepth => (fst acc ++ [VarScalar (snd acc)], S (snd acc))
         | VectorDepth n => (fst acc ++ [VarVector (seq (snd acc) n)], (snd acc + n)%nat)
         end) ds (s, c)) = s ++ t /\ of_depths ds t /\ values t = seq c (total ds).
Proof.
  induction ds as [|d ds IH]; intros s c.
  - exists []. simpl. rewrite app_nil_r. repeat split. constructor.
  - cbn [fold_left fst snd]. destruct d as [|n].
    + destruct (IH (s ++ [VarScalar c]) (S c)) as (t & E & D & V). exists (VarScalar c :: t).
      rewrite E, <- app_assoc. split; [reflexivity|]. split; [constructor; [exact I|assumption]|].
      rewrite values_cons, V, total_cons. reflexivity.
    + destruct (IH (s ++ [VarVector (seq c n)]) (c + n)%nat) as (t & E & D & V). exists (VarVector (seq c n) :: t).
      rewrite E, <- app_assoc. split; [reflexivity|]. split; [constructor; [apply seq_length|assumption]|].
      rewrite values_cons, V, total_cons. cbn [depth_value]. symmetry. apply seq_app.
Qed.

Lemma numbered_fold name l (acc : list varname) :
  fold_left (fun acc i => acc ++ [Numbered name i]) l acc = acc ++ map (Numbered name) l.
Proof.
  revert acc; induction l as [|i l IH]; intros acc; simpl; [rewrite app_nil_r; reflexivity|].
  rewrite IH, <- app_assoc. reflexivity.
Qed.

Lemma var_names_spec names ds : VarNames names ds = component_names names ds.
Proof.
  unfold VarNames, component_names.
  assert (forall l acc, fold_left (fun (acc : list varname) (nd : string * depth) =>
               let ncomp := depth_value (snd nd) in
               if Nat.eqb ncomp 1 then acc ++ [Plain (fst nd)]
               else fold_left (fun acc i => acc ++ [Numbered (fst nd) i]) (seq 0 ncomp) acc) l acc =
    acc ++ flat_map (fun nd => match snd nd with
                      | ScalarDepth | VectorDepth 1 => [Plain (fst nd)]
                      | VectorDepth n => map (Numbered (fst nd)) (seq 0 n)
                      end) l) as G; [|apply G].
  induction l as [|[name d] l IH]; intros acc; simpl; [rewrite app_nil_r; reflexivity|].
  rewrite IH. destruct d as [|[|[|n]]].
  - simpl. rewrite <- app_assoc. reflexivity.
  - simpl. reflexivity.
  - simpl. rewrite <- app_assoc. reflexivity.
  - cbn [depth_value Nat.eqb]. rewrite numbered_fold, <- app_assoc. reflexivity.
Qed.

Lemma component_names_length names ds : length names = length ds -> length (component_names names ds) = total ds.
Proof.
  unfold component_names. revert names; induction ds as [|d ds IH]; intros [|name names] H; try discriminate; [reflexivity|].
  cbn [combine flat_map snd fst]. rewrite app_length, IH by (simpl in H; lia). rewrite total_cons. f_equal.
  destruct d as [|[|[|n]]]; try reflexivity. cbn [depth_value]. rewrite map_length, seq_length. reflexivity.
Qed.

Lemma component_names_nodup names ds : NoDup names -> NoDup (component_names names ds).
Proof.
  unfold component_names. intros H. revert ds; induction H as [|name names Hn _ IH]; intros ds; [constructor|].
  destruct ds as [|d ds]; [constructor|]. cbn [combine flat_map snd fst].
  assert (forall x, In x (flat_map (fun nd => match snd nd with
                      | ScalarDepth | VectorDepth 1 => [Plain (fst nd)]
                      | VectorDepth n => map (Numbered (fst nd)) (seq 0 n)
                      end) (combine names ds)) ->
     In (match x with Plain n => n | Numbered n _ => n end) names) as Hin.
  { intros x Hx. apply in_flat_map in Hx as ([n d0] & H1 & H2). apply in_combine_l in H1. cbn [fst snd] in H2.
    destruct d0 as [|[|[|k]]]; cbn [In] in H2.
    - destruct H2 as [<- | []]. exact H1.
    - destruct H2.
    - destruct H2 as [<- | []]. exact H1.
    - apply in_map_iff in H2 as (i & <- & _). exact H1. }
  assert (forall l, NoDup l -> (forall x, In x l -> (match x with Plain n => n | Numbered n _ => n end) = name) ->
    NoDup (l ++ flat_map (fun nd => match snd nd with
                      | ScalarDepth | VectorDepth 1 => [Plain (fst nd)]
                      | VectorDepth n => map (Numbered (fst nd)) (seq 0 n)
                      end) (combine names ds))) as G.
  { intros l Hl Hx. induction Hl as [|y l Hy _ IHl]; [apply IH|]. simpl. constructor.
    - intros Hy'. apply in_app_iff in Hy' as [Hy' | Hy']; [contradiction|]. apply Hn.
      rewrite <- (Hx y) by (left; reflexivity). apply Hin. exact Hy'.
    - apply IHl. intros x Hx'. apply Hx. right. exact Hx'. }
  apply G.
  - destruct d as [|[|[|k]]].
    + apply NoDup_cons; [intros []|apply NoDup_nil].
    + apply NoDup_nil.
    + apply NoDup_cons; [intros []|apply NoDup_nil].
    + apply Injective_map_NoDup; [intros a b E; congruence|apply seq_NoDup].
  - intros x Hx. destruct d as [|[|[|k]]]; cbn [In] in Hx.
    + destruct Hx as [<- | []]. reflexivity.
    + destruct Hx.
    + destruct Hx as [<- | []]. reflexivity.
    + apply in_map_iff in Hx as (i & <- & _). reflexivity.
Qed.
