(** Lemmas for C163. *)
From Coq Require Import List Arith Lia.
From Verif Require Import CompleteModel CompleteSpec.
Import ListNotations.

Lemma combine_map : forall (A B : Type) (lane : B -> A -> B) (f : A -> B) complete conss, (forall b a, lane b a = f a) -> length complete = length conss ->
  CompleteArray lane complete conss = map f conss.
Proof.
  intros A B lane f complete. unfold CompleteArray. induction complete as [|b complete IH]; intros [|a conss] H L; try discriminate L; [reflexivity|].
  cbn [combine map fst snd]. rewrite H, IH by auto. reflexivity.
Qed.

(** Writing the next lanes behind a finished part *)
Lemma store_next : forall (B : Type) (done_ rest lanes : list B), (length lanes <= length rest)%nat ->
  Store (done_ ++ rest) (length done_) lanes = Some ((done_ ++ lanes) ++ skipn (length lanes) rest).
Proof.
  intros B d r l L. unfold Store. rewrite app_length. destruct (Nat.leb_spec (length d + length l) (length d + length r)); [|lia].
  rewrite firstn_app, firstn_all, Nat.sub_diag. cbn [firstn]. rewrite app_nil_r, skipn_app, skipn_all2 by lia. cbn [app].
  replace (length d + length l - length d)%nat with (length l) by lia. rewrite app_assoc. reflexivity.
Qed.

Lemma skip_skip : forall (A : Type) (l : list A) a b, skipn a (skipn b l) = skipn (a + b) l.
Proof.
  intros A l a b. revert l. induction b as [|b IH]; intros l; [rewrite Nat.add_0_r; reflexivity|]. rewrite Nat.add_succ_r. destruct l as [|x l]; [rewrite !skipn_nil; reflexivity|].
  cbn [skipn]. apply IH.
Qed.

Lemma skipn_past : forall (A : Type) (a b : list A), skipn (length a) (a ++ b) = b.
Proof. intros A a b. rewrite skipn_app, skipn_all, Nat.sub_diag. reflexivity. Qed.

Lemma complete_row : forall (A B : Type) w (lane : B -> A -> B) f, (0 < w)%nat -> (forall b a, lane b a = f a) ->
  forall fuel done_ todo rest arrays, (length todo < fuel)%nat -> (length todo <= length rest)%nat -> length (fst arrays) = w -> length (snd arrays) = w ->
  exists c, CompleteRow w lane fuel (done_ ++ todo) (map f done_ ++ rest) (length done_) arrays = Some (map f done_ ++ completed f (todo, rest), c) /\ length (fst c) = w /\ length (snd c) = w.
Proof.
  intros A B w lane f W H fuel. induction fuel as [|fuel IH]; intros done_ todo rest arrays F R C1 C; [lia|].
  cbn [CompleteRow]. rewrite app_length. replace (length done_ + length todo - length done_)%nat with (length todo) by lia.
  destruct (Nat.leb_spec w (length todo)) as [L|L].
  - unfold Load. rewrite app_length. destruct (Nat.leb_spec (length done_ + w) (length done_ + length todo)); [|lia]. rewrite skipn_past.
    assert (LF : length (firstn w todo) = w) by (rewrite firstn_length; lia).
    rewrite (combine_map _ _ lane f) by (assumption || congruence).
    pose proof (store_next B (map f done_) rest (map f (firstn w todo))) as S1. rewrite !map_length, LF in S1. rewrite S1 by lia.
    replace (done_ ++ todo) with ((done_ ++ firstn w todo) ++ skipn w todo) by (rewrite <- app_assoc, firstn_skipn; reflexivity). rewrite <- map_app.
    replace (length done_ + w)%nat with (length (done_ ++ firstn w todo)) by (rewrite app_length; lia).
    destruct (IH (done_ ++ firstn w todo) (skipn w todo) (skipn w rest) (firstn w todo, map f (firstn w todo))) as (c & E & LC).
    + rewrite skipn_length. lia.
    + rewrite !skipn_length. lia.
    + exact LF.
    + cbn [snd]. rewrite map_length. exact LF.
    + exists c. split; [|exact LC]. rewrite E. f_equal. f_equal. unfold completed. cbn [fst snd]. rewrite map_app, <- app_assoc. f_equal.
      rewrite app_assoc, <- map_app, firstn_skipn. f_equal. rewrite skip_skip, skipn_length. f_equal. lia.
  - unfold LoadN. rewrite app_length, Nat.leb_refl, skipn_past, firstn_all.
    assert (LF : length (todo ++ skipn (length todo) (fst arrays)) = w) by (rewrite app_length, skipn_length; lia).
    rewrite (combine_map _ _ lane f) by (assumption || congruence). unfold StoreN.
    rewrite map_app, firstn_app, map_length, Nat.sub_diag. cbn [firstn]. rewrite app_nil_r.
    replace (firstn (length todo) (map f todo)) with (map f todo) by (rewrite <- (map_length f todo), firstn_all; reflexivity).
    pose proof (store_next B (map f done_) rest (map f todo)) as S1. rewrite !map_length in S1. rewrite S1 by lia.
    eexists. split; [f_equal; f_equal; rewrite <- app_assoc; reflexivity|]. split; cbn [fst snd]; [exact LF|]. rewrite <- map_app, map_length. exact LF.
Qed.

Lemma complete_cells : forall (A B : Type) (scalar : B -> A -> B) f, (forall b a, scalar b a = f a) ->
  forall todo more done_ rest complete, (length todo <= length rest)%nat ->
  exists c, CompleteCells scalar (length todo) (done_ ++ todo ++ more) (map f done_ ++ rest) (length done_) complete = Some (map f done_ ++ completed f (todo, rest), c).
Proof.
  intros A B scalar f H todo more. induction todo as [|a todo IH]; intros done_ rest complete R; cbn [length CompleteCells].
  - eexists. reflexivity.
  - cbn [length] in R. rewrite nth_error_app2, Nat.sub_diag by lia. cbn [app nth_error]. rewrite H.
    pose proof (store_next B (map f done_) rest [f a]) as S1. rewrite map_length in S1. rewrite S1 by (cbn; lia).
    destruct (IH (done_ ++ [a]) (skipn 1 rest) (f a)) as (c & E); [rewrite skipn_length; lia|].
    rewrite <- app_assoc, app_length in E. cbn [app length] in E. rewrite Nat.add_1_r, map_app in E. cbn [map] in E. cbn [length]. rewrite E.
    exists c. f_equal. f_equal. unfold completed. cbn [fst snd map length]. rewrite <- app_assoc. cbn [app]. f_equal. f_equal. f_equal. rewrite skip_skip. f_equal. lia.
Qed.
