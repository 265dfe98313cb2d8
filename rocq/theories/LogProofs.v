(** Proofs for C155. *)
From Coq Require Import List Arith Bool Lia Permutation.
From Verif Require Import LogModel LogSpec.
Import ListNotations.

(** ** The order of strings *)
Lemma less_irrefl a : str_less a a = false.
Proof. induction a as [|x a IH]; [reflexivity|]. cbn [str_less]. rewrite Nat.ltb_irrefl. exact IH. Qed.
Lemma less_total : forall a b, str_less a b = false -> str_less b a = false -> a = b.
Proof.
  induction a as [|x a IH]; intros [|y b]; cbn [str_less]; try discriminate; [reflexivity|].
  destruct (Nat.ltb_spec x y); [discriminate|]. destruct (Nat.ltb_spec y x); [discriminate|]. intros H1 H2. f_equal; [lia|now apply IH].
Qed.
Lemma less_trans : forall a b c, str_less a b = true -> str_less b c = true -> str_less a c = true.
Proof.
  induction a as [|x a IH]; intros [|y b] [|z c]; cbn [str_less]; try discriminate; try reflexivity.
  destruct (Nat.ltb_spec x y), (Nat.ltb_spec y z), (Nat.ltb_spec x z), (Nat.ltb_spec y x), (Nat.ltb_spec z y), (Nat.ltb_spec z x); try discriminate; try reflexivity; try lia; eauto.
Qed.
Lemma eqb_spec a b : str_eqb a b = true <-> a = b.
Proof. unfold str_eqb. destruct (list_eq_dec Nat.eq_dec a b); split; congruence. Qed.

(** ** Binary search *)
Section search.
Context (v : list bytes) (x : bytes).
Hypothesis (Sv : forall i j, i < j < length v -> str_less (nth j v []) (nth i v []) = false).
Let P k := str_less (nth k v []) x = true.
Lemma P_down i j : i < j < length v -> P j -> P i.
Proof.
  unfold P. intros B Hj. destruct (str_less (nth i v []) (nth j v [])) eqn:E; [now apply (less_trans _ (nth j v []))|].
  rewrite (less_total (nth i v []) (nth j v [])); [exact Hj|exact E|now apply Sv].
Qed.
Lemma search_spec : forall fuel first len, len <= fuel -> first + len <= length v -> (forall k, k < first -> P k) -> (forall k, first + len <= k < length v -> ~ P k) ->
  let r := lower_bound_loop fuel v x first len in r <= length v /\ (forall k, k < r -> P k) /\ (forall k, r <= k < length v -> ~ P k).
Proof.
  induction fuel as [|fuel IH]; intros first len Hl Hn Hlo Hhi; cbn [lower_bound_loop].
  - assert (len = 0) as -> by lia. rewrite Nat.add_0_r in *. repeat split; try assumption.
  - destruct (Nat.eqb_spec len 0) as [->|N]; [rewrite Nat.add_0_r in *; repeat split; assumption|].
    cbv zeta. set (half := Nat.div2 len). assert (Hh : half < len) by (apply Nat.lt_div2; lia). clearbody half.
    destruct (str_less (nth (first + half) v []) x) eqn:E.
    + apply IH; try lia.
      * intros k Hk. destruct (Nat.eq_dec k (first + half)) as [->|Nk]; [exact E|]. apply (P_down k (first + half)); [lia|exact E].
      * intros k Hk. apply Hhi. lia.
    + apply IH; try lia; [exact Hlo|]. intros k Hk Pk. destruct (Nat.eq_dec k (first + half)) as [->|Nk]; [unfold P in Pk; congruence|].
      assert (Q : P (first + half)) by (apply (P_down _ k); [lia|exact Pk]). unfold P in Q. congruence.
Qed.
Lemma found_iff : In x v <-> lower_bound v x <> length v /\ nth (lower_bound v x) v [] = x.
Proof.
  destruct (search_spec (length v) 0 (length v)) as (H1 & H2 & H3); try lia. unfold lower_bound. set (r := lower_bound_loop (length v) v x 0 (length v)) in *.
  split.
  - intros Hi. destruct (In_nth v x [] Hi) as (k & Hk & Ek). assert (NP : ~ P k) by (unfold P; rewrite Ek, less_irrefl; discriminate).
    assert (r <= k) by (destruct (le_lt_dec r k) as [|L]; [assumption|exfalso; now apply NP, H2]).
    split; [lia|]. apply less_total.
    + specialize (H3 r ltac:(lia)). unfold P in H3. now destruct (str_less (nth r v []) x).
    + destruct (Nat.eq_dec r k) as [->|N]; [rewrite Ek; apply less_irrefl|]. rewrite <- Ek. apply Sv. lia.
  - intros [N E]. rewrite <- E. apply nth_In. lia.
Qed.
End search.

Lemma filter_iff (blacklist : list bytes) (r : record) : (forall i j, i < j < length blacklist -> str_less (nth j blacklist []) (nth i blacklist []) = false) ->
  (file_filter blacklist r = true <-> forall c, r_channel r = Some c -> ~ In c blacklist).
Proof.
  intros Sv. unfold file_filter. destruct (r_channel r) as [c|]; [|split; [intros _ c0; discriminate|reflexivity]].
  cbv zeta. pose proof (found_iff blacklist c Sv) as F. split.
  - intros H c' [= <-] Hi. apply F in Hi. destruct Hi as [N E]. apply orb_true_iff in H. destruct H as [H|H]; [apply Nat.eqb_eq in H; contradiction|].
    apply negb_true_iff in H. apply eqb_spec in E. congruence.
  - intros H. specialize (H c eq_refl). apply orb_true_iff. destruct (Nat.eq_dec (lower_bound blacklist c) (length blacklist)) as [E|N]; [left; apply Nat.eqb_eq; exact E|right].
    apply negb_true_iff. destruct (str_eqb (nth (lower_bound blacklist c) blacklist []) c) eqn:E; [|reflexivity]. apply eqb_spec in E. exfalso. apply H, F. split; assumption.
Qed.

(** ** Lines *)
Lemma lines_cons t : exists l ls, lines t = l :: ls.
Proof. destruct t as [|c t]; cbn; [eauto|]. destruct (Nat.eq_dec c newline); [eauto|]. destruct (lines t); eauto. Qed.
Lemma lines_prefix p t l ls : ~ In newline p -> lines t = l :: ls -> lines (p ++ t) = (p ++ l) :: ls.
Proof.
  induction p as [|c p IH]; intros N E; [exact E|]. cbn [app lines]. rewrite IH; [|intros Q; apply N; now right|exact E].
  destruct (Nat.eq_dec c newline) as [->|]; [exfalso; apply N; now left|reflexivity].
Qed.
Lemma format_lines p m : ~ In newline p -> lines (p ++ replace_newlines m (newline :: p)) = map (app p) (lines m).
Proof.
  intros N. induction m as [|c m IH].
  - cbn. rewrite (lines_prefix p [] [] []); [reflexivity|exact N|reflexivity].
  - unfold replace_newlines in *. cbn [flat_map]. set (t := flat_map (fun c => if c =? newline then newline :: p else [c]) m) in *. cbn [lines].
    destruct (Nat.eqb_spec c newline) as [->|Nc].
    + destruct (Nat.eq_dec newline newline) as [_|]; [|contradiction]. cbn [map].
      rewrite (lines_prefix p ((newline :: p) ++ t) [] (lines (p ++ t))); [rewrite IH; reflexivity|exact N|].
      cbn [app lines]. destruct (Nat.eq_dec newline newline); [reflexivity|contradiction].
    + destruct (Nat.eq_dec c newline); [contradiction|]. destruct (lines_cons t) as (l & ls & E). destruct (lines_cons m) as (l' & ls' & E').
      rewrite (lines_prefix p t l ls N E), E' in IH. cbn [map] in IH. injection IH as H1 H2. apply app_inv_head in H1. subst l' ls. rewrite E'. cbn [map].
      apply lines_prefix; [exact N|]. cbn [app lines]. rewrite E. destruct (Nat.eq_dec c newline); [contradiction|reflexivity].
Qed.

(** ** Files *)
Lemma free_spec dec fs name : forall turns i, (exists k, i <= k < i + turns /\ fs (numbered dec name k) = None) ->
  exists k, i <= k < i + turns /\ fs (numbered dec name k) = None /\ (forall q, i <= q < k -> fs (numbered dec name q) <> None) /\ free_name dec fs name i turns = Some (numbered dec name k).
Proof.
  induction turns as [|turns IH]; intros i (k & B & E); [lia|]. cbn [free_name]. change (name ++ 46 :: dec i) with (numbered dec name i).
  destruct (fs (numbered dec name i)) as [nd|] eqn:F.
  - destruct (IH (S i)) as (k' & B' & E' & M & R).
    + exists k. split; [|exact E]. assert (k <> i) by (intros ->; congruence). lia.
    + exists k'. split; [lia|]. split; [exact E'|]. split; [|exact R]. intros q Hq. destruct (Nat.eq_dec q i) as [->|]; [congruence|]. apply M. lia.
  - exists i. split; [lia|]. split; [exact F|]. split; [intros q Hq; lia|reflexivity].
Qed.
Lemma numbered_neq dec name i : numbered dec name i <> name.
Proof. intros E. apply (f_equal (@length nat)) in E. unfold numbered in E. rewrite !app_length in E. cbn in E. lia. Qed.
Lemma update_same fs n x : update fs n x n = x.
Proof. unfold update. assert (str_eqb n n = true) as -> by now apply eqb_spec. reflexivity. Qed.
Lemma update_other fs n x k : k <> n -> update fs n x k = fs k.
Proof. intros H. unfold update. destruct (str_eqb k n) eqn:E; [apply eqb_spec in E; contradiction|reflexivity]. Qed.
