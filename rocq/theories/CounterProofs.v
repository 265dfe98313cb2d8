(** Lemmas about counters and timers. *)
From Coq Require Import String List ZArith Reals Lia Lra Bool Permutation.
From Verif Require Import CounterModel CounterSpec.
Import ListNotations.
Local Open Scope Z_scope.

(** ** Sums *)

Lemma fold_add_acc l : forall a, fold_left Z.add l a = a + fold_left Z.add l 0.
Proof. induction l as [|x l IH]; intros a; cbn [fold_left]; [lia|]. rewrite IH, (IH (0 + x)). lia. Qed.

Lemma fold_add_right l : fold_left Z.add l 0 = fold_right Z.add 0 l.
Proof. induction l as [|x l IH]; [reflexivity|]. cbn [fold_left fold_right]. rewrite fold_add_acc, IH. lia. Qed.

Lemma fold_radd_acc l : forall a, (fold_left Rplus l a = a + fold_left Rplus l 0)%R.
Proof. induction l as [|x l IH]; intros a; cbn [fold_left]; [lra|]. rewrite IH, (IH (0 + x)%R). lra. Qed.

Lemma fold_radd_right l : fold_left Rplus l 0%R = fold_right Rplus 0%R l.
Proof. induction l as [|x l IH]; [reflexivity|]. cbn [fold_left fold_right]. rewrite fold_radd_acc, IH. lra. Qed.

Lemma IZR_sum l : IZR (fold_right Z.add 0 l) = fold_right Rplus 0%R (map IZR l).
Proof. induction l as [|x l IH]; [reflexivity|]. cbn [fold_right map]. rewrite plus_IZR, IH. reflexivity. Qed.

Lemma INR_length_pos {A} (l : list A) : l <> [] -> (0 < INR (length l))%R.
Proof. intros H. apply lt_0_INR. destruct l; [congruence|cbn; lia]. Qed.

Lemma mean_spec_ll l : l <> [] -> is_mean (map IZR l) (calculate_mean_ll l).
Proof.
  intros H. unfold is_mean, calculate_mean_ll. pose proof (INR_length_pos l H) as P. destruct l as [|x l]; [congruence|].
  rewrite fold_add_right, IZR_sum, map_length. field. lra.
Qed.

Lemma mean_spec_d l : l <> [] -> is_mean l (calculate_mean_d l).
Proof.
  intros H. unfold is_mean, calculate_mean_d. pose proof (INR_length_pos l H) as P. destruct l as [|x l]; [congruence|].
  rewrite fold_radd_right. field. lra.
Qed.

Lemma min_element_spec l : forall x, is_least (x :: l) (min_element x l).
Proof.
  unfold min_element. induction l as [|y l IH]; intros x; cbn [fold_left].
  - split; [left; reflexivity|]. intros z [-> |[]]. lia.
  - destruct (IH (if y <? x then y else x)) as [A B]. split.
    + destruct A as [A|A]; [|right; right; exact A]. rewrite <- A. destruct (y <? x); [right; left|left]; reflexivity.
    + assert (E : (if y <? x then y else x) = Z.min x y) by (destruct (Z.ltb_spec y x); lia).
      pose proof (B _ (or_introl eq_refl)) as B0. rewrite E in *.
      intros z [<- |[<- |Hz]]; [lia|lia|]. apply B. right. assumption.
Qed.

Lemma max_element_spec l : forall x, is_greatest (x :: l) (max_element x l).
Proof.
  unfold max_element. induction l as [|y l IH]; intros x; cbn [fold_left].
  - split; [left; reflexivity|]. intros z [-> |[]]. lia.
  - destruct (IH (if x <? y then y else x)) as [A B]. split.
    + destruct A as [A|A]; [|right; right; exact A]. rewrite <- A. destruct (x <? y); [right; left|left]; reflexivity.
    + assert (E : (if x <? y then y else x) = Z.max x y) by (destruct (Z.ltb_spec x y); lia).
      pose proof (B _ (or_introl eq_refl)) as B0. rewrite E in *.
      intros z [<- |[<- |Hz]]; [lia|lia|]. apply B. right. assumption.
Qed.

Lemma get_min_spec c : c <> [] -> is_least c (get_min c).
Proof. destruct c as [|x l]; [congruence|]. intros _. apply min_element_spec. Qed.

Lemma get_max_spec c : c <> [] -> is_greatest c (get_max c).
Proof. destruct c as [|x l]; [congruence|]. intros _. apply max_element_spec. Qed.

Lemma sum_bounds l a b : (forall x, In x l -> (a <= x <= b)%R) ->
  (INR (length l) * a <= fold_right Rplus 0 l <= INR (length l) * b)%R.
Proof.
  induction l as [|x l IH]; intros H.
  - cbn. lra.
  - cbn [fold_right length]. rewrite S_INR. pose proof (H x (or_introl eq_refl)). destruct IH; [intros; apply H; right; assumption|].
    lra.
Qed.

Lemma mean_bounds l m a b : l <> [] -> is_mean l m -> (forall x, In x l -> (a <= x <= b)%R) -> (a <= m <= b)%R.
Proof.
  intros N M H. apply INR_length_pos in N. apply sum_bounds in H. unfold is_mean in M. rewrite <- M in H.
  destruct H as [H1 H2]. split; apply Rmult_le_reg_l with (r := INR (length l)); assumption.
Qed.

Lemma sq_sum_acc m l : forall a, (fold_left (fun acc x => acc + (x - m) * (x - m)) l a = a + sq_sum m l)%R.
Proof.
  unfold sq_sum. induction l as [|x l IH]; intros a; cbn [fold_left]; [lra|]. rewrite IH, (IH (0 + _)%R). lra.
Qed.

Lemma sq_sum_cons m x l : (sq_sum m (x :: l) = (x - m) * (x - m) + sq_sum m l)%R.
Proof. unfold sq_sum at 1. cbn [fold_left]. rewrite sq_sum_acc. lra. Qed.

Lemma sq_sum_nonneg m l : (0 <= sq_sum m l)%R.
Proof.
  induction l as [|x l IH]; [unfold sq_sum; cbn; lra|]. rewrite sq_sum_cons. pose proof (Rle_0_sqr (x - m)) as H. unfold Rsqr in H. lra.
Qed.

Lemma sq_sum_zero m l : sq_sum m l = 0%R <-> forall x, In x l -> x = m.
Proof.
  induction l as [|x l IH].
  - split; [intros _ y []|reflexivity].
  - rewrite sq_sum_cons. pose proof (Rle_0_sqr (x - m)) as H. unfold Rsqr in H. pose proof (sq_sum_nonneg m l) as P. split.
    + intros E. assert (E1 : ((x - m) * (x - m) = 0)%R) by lra. assert (E2 : sq_sum m l = 0%R) by lra.
      intros y [<- |Hy]; [|apply IH; assumption]. apply Rmult_integral in E1. lra.
    + intros Q. rewrite (Q x (or_introl eq_refl)). rewrite (proj2 IH); [ring|]. intros y Hy. apply Q. right. assumption.
Qed.

Lemma variance_ll l : (0 <= calculate_variance_ll l)%R /\
  (calculate_variance_ll l = 0%R <-> forall x y, In x l -> In y l -> x = y) /\
  (l <> [] -> is_mean (map (fun x => (IZR x - calculate_mean_ll l) ^ 2)%R l) (calculate_variance_ll l)).
Proof.
  destruct (list_eq_dec Z.eq_dec l []) as [-> | N].
  - cbn. split; [lra|]. split; [|congruence]. split; [intros _ x y []|reflexivity].
  - pose proof (INR_length_pos l N) as P. pose proof (mean_spec_ll l N) as M.
    assert (E : calculate_variance_ll l = (sq_sum (calculate_mean_ll l) (map IZR l) / INR (length l))%R) by (destruct l; [congruence|reflexivity]).
    rewrite E. pose proof (sq_sum_nonneg (calculate_mean_ll l) (map IZR l)) as S.
    split; [apply Rmult_le_pos; [assumption|]; left; apply Rinv_0_lt_compat, P|]. split.
    + split.
      * intros Z. assert (S0 : sq_sum (calculate_mean_ll l) (map IZR l) = 0%R).
        { apply Rmult_eq_reg_r with (r := (/ INR (length l))%R); [|apply Rinv_neq_0_compat; lra]. rewrite Rmult_0_l. exact Z. }
        intros x y Hx Hy. apply eq_IZR. rewrite sq_sum_zero in S0.
        rewrite (S0 (IZR x)), (S0 (IZR y)); [reflexivity| |]; apply in_map; assumption.
      * intros Q. destruct l as [|x l]; [congruence|].
        assert (A : forall y, In y (map IZR (x :: l)) -> y = IZR x).
        { intros y Hy. apply in_map_iff in Hy as (z & <- & Hz). f_equal. apply Q; [assumption|left; reflexivity]. }
        assert (B : (IZR x <= calculate_mean_ll (x :: l) <= IZR x)%R).
        { apply (mean_bounds (map IZR (x :: l))); [discriminate|assumption|]. intros y Hy. rewrite (A y Hy). lra. }
        rewrite (proj2 (sq_sum_zero _ _)); [unfold Rdiv; ring|]. intros y Hy. rewrite (A y Hy). lra.
    + intros _. unfold is_mean. rewrite map_length.
      assert (Q : forall m l, sq_sum m (map IZR l) = fold_right Rplus 0%R (map (fun x => (IZR x - m) ^ 2)%R l)).
      { clear. intros m l. induction l as [|x l IH]; [reflexivity|]. cbn [map fold_right]. rewrite sq_sum_cons, IH. ring. }
      rewrite <- Q. field. lra.
Qed.

Lemma perm_sum (l l' : list Z) : Permutation l l' -> fold_right Z.add 0 l = fold_right Z.add 0 l'.
Proof. induction 1; cbn [fold_right]; lia. Qed.

Lemma perm_sq m (l l' : list R) : Permutation l l' -> sq_sum m l = sq_sum m l'.
Proof. induction 1; rewrite ?sq_sum_cons; lra. Qed.

Lemma least_unique l a b : is_least l a -> is_least l b -> a = b.
Proof. intros [A1 A2] [B1 B2]. specialize (A2 b B1). specialize (B2 a A1). lia. Qed.
Lemma greatest_unique l a b : is_greatest l a -> is_greatest l b -> a = b.
Proof. intros [A1 A2] [B1 B2]. specialize (A2 b B1). specialize (B2 a A1). lia. Qed.

Lemma permuted c c' : Permutation c c' ->
  get_value c = get_value c' /\ get_count c = get_count c' /\ get_min c = get_min c' /\ get_max c = get_max c' /\
  get_mean c = get_mean c' /\ get_variance c = get_variance c' /\ get_stddev c = get_stddev c'.
Proof.
  intros P. destruct (list_eq_dec Z.eq_dec c []) as [-> | N].
  - apply Permutation_nil in P. subst. repeat split.
  - assert (N' : c' <> []) by (intros ->; apply Permutation_sym, Permutation_nil in P; congruence).
    assert (V : get_value c = get_value c') by (unfold get_value; rewrite !fold_add_right; apply perm_sum, P).
    assert (C : length c = length c') by apply Permutation_length, P.
    assert (M : get_mean c = get_mean c').
    { unfold get_mean, calculate_mean_ll. unfold get_value in V. destruct c; [congruence|]. destruct c'; [congruence|]. rewrite V, C. reflexivity. }
    assert (W : get_variance c = get_variance c').
    { unfold get_variance, calculate_variance_ll. unfold get_mean in M. destruct c; [congruence|]. destruct c'; [congruence|].
      rewrite M, C. f_equal. apply perm_sq. apply Permutation_map, P. }
    split; [assumption|]. split; [assumption|]. split.
    { apply (least_unique c'); [|apply get_min_spec, N']. destruct (get_min_spec c N) as [A B]. split.
      - eapply Permutation_in; eassumption.
      - intros x Hx. apply B. eapply Permutation_in; [apply Permutation_sym; eassumption|assumption]. }
    split.
    { apply (greatest_unique c'); [|apply get_max_spec, N']. destruct (get_max_spec c N) as [A B]. split.
      - eapply Permutation_in; eassumption.
      - intros x Hx. apply B. eapply Permutation_in; [apply Permutation_sym; eassumption|assumption]. }
    split; [assumption|]. split; [assumption|]. unfold get_stddev. rewrite W. reflexivity.
Qed.

Lemma run_calls_from calls : forall c,
  fold_left (fun c call => match call with Add v => add c v | Reset => reset c end) calls c =
  if existsb (fun c => match c with Reset => true | _ => false end) calls then since_reset calls else c ++ since_reset calls.
Proof.
  induction calls as [|[v|] calls IH]; intros c.
  - cbn. rewrite app_nil_r. reflexivity.
  - cbn [fold_left existsb orb since_reset]. rewrite IH. destruct (existsb _ calls); [reflexivity|].
    unfold add. rewrite <- app_assoc. reflexivity.
  - cbn [fold_left existsb orb since_reset]. rewrite IH. unfold reset. destruct (existsb _ calls); reflexivity.
Qed.

(** ** Gathering *)

Lemma gather_min_max root ranks : (forall c, In c ranks -> c <> []) -> ranks <> [] ->
  exists r, gather_statistics root ranks = Some r /\ is_least (concat ranks) (r_min r) /\ is_greatest (concat ranks) (r_max r) /\
    r_mean r = calculate_mean_d (map get_mean ranks) /\ r_count r = length root.
Proof.
  intros H N. destruct ranks as [|c cs]; [congruence|].
  exists (mkResult (get_count root) (min_element (get_min c) (map get_min cs)) (max_element (get_max c) (map get_max cs))
     (calculate_mean_d (map get_mean (c :: cs))) (sqrt (calculate_variance_d (map get_mean (c :: cs)))) (calculate_variance_d (map get_mean (c :: cs)))).
  split; [reflexivity|]. cbn [r_min r_max r_mean r_count].
  pose proof (min_element_spec (map get_min cs) (get_min c)) as [A1 A2].
  pose proof (max_element_spec (map get_max cs) (get_max c)) as [B1 B2].
  change (get_min c :: map get_min cs) with (map get_min (c :: cs)) in A1, A2.
  change (get_max c :: map get_max cs) with (map get_max (c :: cs)) in B1, B2.
  split; [split|split; [split|split; reflexivity]].
  - apply in_map_iff in A1 as (d & E & Hd). rewrite <- E. apply in_concat. exists d. split; [assumption|]. apply get_min_spec, H, Hd.
  - intros x Hx. apply in_concat in Hx as (d & Hd & Hx).
    pose proof (A2 (get_min d) (in_map _ _ _ Hd)). pose proof (proj2 (get_min_spec d (H d Hd)) x Hx). lia.
  - apply in_map_iff in B1 as (d & E & Hd). rewrite <- E. apply in_concat. exists d. split; [assumption|]. apply get_max_spec, H, Hd.
  - intros x Hx. apply in_concat in Hx as (d & Hd & Hx).
    pose proof (B2 (get_max d) (in_map _ _ _ Hd)). pose proof (proj2 (get_max_spec d (H d Hd)) x Hx). lia.
Qed.

Lemma sum_app l l' : (fold_right Rplus 0 (l ++ l') = fold_right Rplus 0 l + fold_right Rplus 0 l')%R.
Proof. induction l as [|x l IH]; cbn [app fold_right]; [lra|]. rewrite IH. lra. Qed.

Lemma gather_mean k ranks : (0 < k)%nat -> (forall c, In c ranks -> length c = k) -> ranks <> [] ->
  is_mean (map IZR (concat ranks)) (calculate_mean_d (map get_mean ranks)).
Proof.
  intros K H N. assert (N' : map get_mean ranks <> []) by (destruct ranks; [congruence|discriminate]).
  pose proof (mean_spec_d _ N') as M. unfold is_mean in *. rewrite map_length in *.
  assert (L : length (concat ranks) = (length ranks * k)%nat).
  { clear N N' M. induction ranks as [|c cs IH]; [reflexivity|]. cbn [concat length]. rewrite app_length, (H c (or_introl eq_refl)), IH; [lia|].
    intros; apply H; right; assumption. }
  assert (S : fold_right Rplus 0%R (map IZR (concat ranks)) = (INR k * fold_right Rplus 0 (map get_mean ranks))%R).
  { clear N N' M L. induction ranks as [|c cs IH]; [cbn; ring|]. cbn [concat map fold_right]. rewrite map_app, sum_app, IH by (intros; apply H; right; assumption).
    assert (C : c <> []) by (intros ->; specialize (H [] (or_introl eq_refl)); cbn in H; lia).
    pose proof (mean_spec_ll c C) as Q. unfold is_mean in Q. rewrite map_length, (H c (or_introl eq_refl)) in Q.
    change (get_mean c) with (calculate_mean_ll c). rewrite <- Q. ring. }
  rewrite L, S, mult_INR. transitivity (INR k * (INR (length ranks) * calculate_mean_d (map get_mean ranks)))%R; [ring|]. f_equal. exact M.
Qed.

(** ** Timers *)

Lemma lookup_update_same {V} n (v : V) l : lookup String.eqb n l <> None -> lookup String.eqb n (update String.eqb n v l) = Some v.
Proof.
  induction l as [|[k x] l IH]; cbn; [congruence|]. destruct (String.eqb k n) eqn:E; cbn; rewrite E; [reflexivity|]. exact IH.
Qed.

Lemma lookup_update_other {V} n m (v : V) l : n <> m -> lookup String.eqb n (update String.eqb m v l) = lookup String.eqb n l.
Proof.
  intros N. induction l as [|[k x] l IH]; [reflexivity|]. cbn [update]. destruct (String.eqb k m) eqn:E; cbn [lookup].
  - apply String.eqb_eq in E. subst k. assert (F : String.eqb m n = false) by (apply String.eqb_neq; congruence). rewrite F. reflexivity.
  - destruct (String.eqb k n); [reflexivity|exact IH].
Qed.

(** identities are unique and running timers refer to a counter of the registry *)
Definition timer_ok (db : list (string * counter)) (t : timer) : Prop :=
  match t_counter t with Some n => lookup String.eqb n db <> None | None => True end.
Definition inv (w : world) : Prop := NoDup (map fst (timers w)) /\ forall p, In p (timers w) -> timer_ok (counters w) (snd p).

Lemma lookup_nat_none {V} id (l : list (nat * V)) : lookup Nat.eqb id l = None <-> ~ In id (map fst l).
Proof.
  induction l as [|[k x] l IH]; cbn [lookup map fst In]; [tauto|]. destruct (Nat.eqb_spec k id) as [-> | N].
  - split; [discriminate|]. intros H. exfalso. apply H. left. reflexivity.
  - rewrite IH. tauto.
Qed.

Lemma lookup_nat_in {V} id (t : V) (l : list (nat * V)) : lookup Nat.eqb id l = Some t -> In (id, t) l.
Proof.
  induction l as [|[k x] l IH]; cbn [lookup]; [discriminate|]. destruct (Nat.eqb_spec k id) as [-> | N].
  - intros E. injection E as ->. left. reflexivity.
  - intros E. right. apply IH, E.
Qed.

Lemma update_keys {V} id (v : V) l : map fst (update Nat.eqb id v l) = map fst l.
Proof. induction l as [|[k x] l IH]; [reflexivity|]. cbn [update]. destruct (Nat.eqb k id); cbn [map fst]; [reflexivity|]. rewrite IH. reflexivity. Qed.

Lemma update_in {V} id (v : V) l p : In p (update Nat.eqb id v l) -> p = (id, v) \/ In p l.
Proof.
  induction l as [|[k x] l IH]; [intros []|]. cbn [update]. destruct (Nat.eqb_spec k id) as [-> | N].
  - intros [<- | H]; [left; reflexivity|right; right; assumption].
  - intros [<- | H]; [right; left; reflexivity|]. destruct (IH H); [left|right; right]; assumption.
Qed.

Lemma delete_in {V} id (l : list (nat * V)) p : In p (delete id l) -> In p l.
Proof.
  induction l as [|[k x] l IH]; [intros []|]. cbn [delete]. destruct (Nat.eqb k id); [intros H; right; assumption|].
  intros [<- | H]; [left; reflexivity|right; apply IH, H].
Qed.

Lemma delete_keys {V} id (l : list (nat * V)) : NoDup (map fst l) -> NoDup (map fst (delete id l)).
Proof.
  induction l as [|[k x] l IH]; intros H; [assumption|]. cbn [delete]. inversion H; subst. destruct (Nat.eqb k id); [assumption|].
  cbn [map fst]. constructor; [|apply IH; assumption]. intros Q. apply in_map_iff in Q as (p & E & Q). apply delete_in in Q.
  apply H2. apply in_map_iff. exists p. auto.
Qed.

Definition count (name : string) (l : list (nat * timer)) : nat := length (filter (fun p => running_for name (snd p)) l).

Lemma count_cons name id t l : count name ((id, t) :: l) = ((if running_for name t then 1 else 0) + count name l)%nat.
Proof. unfold count. cbn [filter snd]. destruct (running_for name t); reflexivity. Qed.

Lemma count_update name id v t l : lookup Nat.eqb id l = Some t ->
  (count name (update Nat.eqb id v l) + (if running_for name t then 1 else 0) = count name l + (if running_for name v then 1 else 0))%nat.
Proof.
  induction l as [|[k x] l IH]; cbn [lookup update]; [discriminate|]. destruct (Nat.eqb k id).
  - intros E. injection E as ->. rewrite !count_cons. lia.
  - intros E. rewrite !count_cons. specialize (IH E). lia.
Qed.

Lemma count_delete name id t l : lookup Nat.eqb id l = Some t ->
  (count name (delete id l) + (if running_for name t then 1 else 0) = count name l)%nat.
Proof.
  induction l as [|[k x] l IH]; cbn [lookup delete]; [discriminate|]. destruct (Nat.eqb k id).
  - intros E. injection E as ->. rewrite !count_cons. lia.
  - intros E. rewrite !count_cons. specialize (IH E). lia.
Qed.

Lemma lookup_nat_update {V} id k (v : V) l : lookup Nat.eqb id l <> None ->
  lookup Nat.eqb k (update Nat.eqb id v l) = if Nat.eqb id k then Some v else lookup Nat.eqb k l.
Proof.
  induction l as [|[a x] l IH]; cbn [lookup]; [congruence|]. intros H. cbn [update].
  destruct (Nat.eqb_spec a id) as [-> | N]; cbn [lookup].
  - destruct (Nat.eqb id k); reflexivity.
  - destruct (Nat.eqb_spec a k) as [-> | N'].
    + destruct (Nat.eqb_spec id k); [congruence|reflexivity].
    + apply IH, H.
Qed.

Lemma registry_get_recorded db tl tl' name n :
  recorded (mkWorld (registry_get name db) tl) n = recorded (mkWorld db tl') n.
Proof.
  unfold recorded, registry_get. cbn [counters]. destruct (lookup String.eqb name db) eqn:E; [reflexivity|].
  cbn [lookup]. destruct (String.eqb_spec name n) as [-> |]; [rewrite E|]; reflexivity.
Qed.

Lemma registry_get_keeps db name n : lookup String.eqb n db <> None -> lookup String.eqb n (registry_get name db) <> None.
Proof.
  unfold registry_get. destruct (lookup String.eqb name db); [auto|]. cbn [lookup]. destruct (String.eqb name n); [discriminate|auto].
Qed.

Lemma registry_get_has db name : lookup String.eqb name (registry_get name db) <> None.
Proof.
  unfold registry_get. destruct (lookup String.eqb name db) eqn:E; [rewrite E; discriminate|]. cbn [lookup].
  rewrite String.eqb_refl. discriminate.
Qed.

Lemma submit_keys t db n : lookup String.eqb n db <> None -> lookup String.eqb n (submit t db) <> None.
Proof.
  unfold submit. destruct (t_counter t) as [m|]; [|auto]. destruct (lookup String.eqb m db) as [c|] eqn:E; [|auto].
  destruct (String.string_dec n m) as [-> | N]; intros H; [rewrite lookup_update_same by assumption; discriminate|].
  rewrite lookup_update_other by assumption. assumption.
Qed.

Lemma step_inv w e w' : inv w -> step w e = Some w' -> inv w'.
Proof.
  intros [ND OK] E. destruct e as [id name now|id|id from|id from|id now]; cbn [step] in E.
  - destruct (get_timer w id) eqn:G; [discriminate|]. injection E as <-. apply lookup_nat_none in G. split; cbn [timers counters map fst].
    + constructor; assumption.
    + intros p [<- | Hp]; cbn [snd].
      * unfold timer_ok. cbn [t_counter]. apply registry_get_has.
      * specialize (OK p Hp). unfold timer_ok in *. destruct (t_counter (snd p)); [apply registry_get_keeps|]; assumption.
  - destruct (get_timer w id) eqn:G; [discriminate|]. injection E as <-. apply lookup_nat_none in G. split; cbn [timers counters map fst].
    + constructor; assumption.
    + intros p [<- | Hp]; [exact I|apply OK, Hp].
  - destruct (get_timer w id) eqn:G; [discriminate|]. destruct (get_timer w from) as [t|] eqn:F; [|discriminate]. injection E as <-.
    apply lookup_nat_none in G. split; cbn [timers counters map fst].
    + rewrite update_keys. constructor; assumption.
    + intros p [<- | Hp]; cbn [snd].
      * apply (OK (from, t)). apply lookup_nat_in, F.
      * apply update_in in Hp as [-> | Hp]; [exact I|apply OK, Hp].
  - destruct (get_timer w id) eqn:G; [|discriminate]. destruct (get_timer w from) as [t'|] eqn:F; [|discriminate]. injection E as <-.
    split; cbn [timers counters].
    + rewrite !update_keys. assumption.
    + intros p Hp. apply update_in in Hp as [-> | Hp]; [apply (OK (from, t')), lookup_nat_in, F|].
      apply update_in in Hp as [-> | Hp]; [exact I|apply OK, Hp].
  - destruct (get_timer w id) as [t|] eqn:G; [|discriminate]. destruct (t_counter t) as [n|] eqn:C; injection E as <-.
    + split; cbn [timers counters]; [apply delete_keys; assumption|].
      intros p Hp. apply delete_in in Hp. specialize (OK p Hp). unfold timer_ok in *.
      destruct (t_counter (snd p)); [apply submit_keys|]; assumption.
    + split; cbn [timers counters]; [apply delete_keys; assumption|]. intros p Hp. apply delete_in in Hp. apply OK, Hp.
Qed.

(** What one event does to the measurements. *)
Lemma step_recorded w e w' n : inv w -> step w e = Some w' ->
  recorded w' n = recorded w n ++
    match e with
    | Destroy id now => match get_timer w id with Some t => if running_for n t then [now - t_start t] else [] | None => [] end
    | _ => []
    end.
Proof.
  intros [ND OK] E. destruct e as [id name now|id|id from|id from|id now]; cbn [step] in E.
  - destruct (get_timer w id) eqn:G; [discriminate|]. injection E as <-. rewrite app_nil_r. destruct w. apply registry_get_recorded.
  - destruct (get_timer w id) eqn:G; [discriminate|]. injection E as <-. rewrite app_nil_r. reflexivity.
  - destruct (get_timer w id) eqn:G; [discriminate|]. destruct (get_timer w from); [|discriminate]. injection E as <-. rewrite app_nil_r. reflexivity.
  - destruct (get_timer w id) eqn:G; [|discriminate]. destruct (get_timer w from); [|discriminate]. injection E as <-. rewrite app_nil_r. reflexivity.
  - destruct (get_timer w id) as [t|] eqn:G; [|discriminate]. unfold running_for. destruct (t_counter t) as [m|] eqn:C; injection E as <-.
    + pose proof (OK (id, t) (lookup_nat_in _ _ _ G)) as T. unfold timer_ok in T. cbn [snd] in T. rewrite C in T.
      unfold recorded, submit. cbn [counters t_counter t_stop t_start].
      destruct (lookup String.eqb m (counters w)) as [c|] eqn:L; [|congruence].
      destruct (String.eqb_spec m n) as [-> | N].
      * rewrite lookup_update_same by congruence. rewrite L. reflexivity.
      * rewrite lookup_update_other by congruence. rewrite app_nil_r. reflexivity.
    + rewrite app_nil_r. reflexivity.
Qed.

Lemma step_count w e w' n : inv w -> step w e = Some w' ->
  (length (recorded w' n) + running w' n + (if overwrites w e n then 1 else 0) =
   length (recorded w n) + running w n + (match e with GetTimer _ m _ => if String.eqb m n then 1 else 0 | _ => 0 end))%nat.
Proof.
  intros I E. rewrite (step_recorded w e w' n I E), app_length. destruct I as [ND OK].
  change (running w' n) with (count n (timers w')). change (running w n) with (count n (timers w)).
  destruct e as [id name now|id|id from|id from|id now]; cbn [step overwrites] in *.
  - destruct (get_timer w id) eqn:G; [discriminate|]. injection E as <-. cbn [timers length]. rewrite count_cons. unfold running_for. cbn [t_counter]. lia.
  - destruct (get_timer w id) eqn:G; [discriminate|]. injection E as <-. cbn [timers length]. rewrite count_cons. cbn. lia.
  - destruct (get_timer w id) eqn:G; [discriminate|]. destruct (get_timer w from) as [t|] eqn:F; [|discriminate]. injection E as <-.
    cbn [timers length]. rewrite count_cons. pose proof (count_update n from default_timer t _ F) as C.
    change (running_for n default_timer) with false in C. cbv iota in C. lia.
  - destruct (get_timer w id) as [t|] eqn:G; [|discriminate]. destruct (get_timer w from) as [t'|] eqn:F; [|discriminate]. injection E as <-.
    cbn [timers length]. pose proof (count_update n from default_timer t' _ F) as C1.
    change (running_for n default_timer) with false in C1. cbv iota in C1.
    assert (L : lookup Nat.eqb id (update Nat.eqb from default_timer (timers w)) = if Nat.eqb from id then Some default_timer else Some t).
    { rewrite lookup_nat_update by (unfold get_timer in F; congruence). unfold get_timer in G. rewrite G. reflexivity. }
    unfold get_timer in G. rewrite G. destruct (Nat.eqb_spec id from) as [-> | N]; cbn [negb andb].
    + rewrite Nat.eqb_refl in L. pose proof (count_update n from t' default_timer _ L) as C2.
      change (running_for n default_timer) with false in C2. cbv iota in C2. lia.
    + destruct (Nat.eqb_spec from id); [congruence|]. pose proof (count_update n id t' t _ L) as C2. destruct (running_for n t); lia.
  - destruct (get_timer w id) as [t|] eqn:G; [|discriminate]. pose proof (count_delete n id t _ G) as C.
    destruct (t_counter t) as [m|] eqn:T; injection E as <-; cbn [timers]; destruct (running_for n t); cbn [length]; lia.
Qed.

Lemma run_inv es : forall w w', inv w -> run w es = Some w' -> inv w'.
Proof.
  induction es as [|e es IH]; intros w w' I E; cbn [run] in E; [injection E as <-; assumption|].
  destruct (step w e) as [w1|] eqn:S; [|discriminate]. apply (IH w1); [apply (step_inv w e); assumption|assumption].
Qed.

Lemma run_count es n : forall w w', inv w -> run w es = Some w' ->
  (length (recorded w' n) + running w' n + overwritten w es n = length (recorded w n) + running w n + started es n)%nat.
Proof.
  induction es as [|e es IH]; intros w w' I E; cbn [run overwritten] in *.
  - injection E as <-. unfold started. cbn. lia.
  - destruct (step w e) as [w1|] eqn:S; [|discriminate].
    pose proof (step_count w e w1 n I S) as C. pose proof (IH w1 w' (step_inv w e w1 I S) E) as D.
    assert (ST : started (e :: es) n = ((match e with GetTimer _ m _ => if String.eqb m n then 1 else 0 | _ => 0 end) + started es n)%nat).
    { unfold started. cbn [filter]. destruct e as [id m now| | | | ]; try reflexivity. destruct (String.eqb m n); reflexivity. }
    rewrite ST. lia.
Qed.

Lemma init_inv : inv init.
Proof. split; [constructor|intros p []]. Qed.

(** Start times come from earlier events. *)
Definition begun (n : string) (t0 : Z) (es : list event) : Prop := exists id, In (GetTimer id n t0) es.

Lemma run_origin es : forall w w' past n, inv w ->
  (forall p, In p (timers w) -> match t_counter (snd p) with Some m => begun m (t_start (snd p)) past | None => True end) ->
  run w es = Some w' ->
  (forall p, In p (timers w') -> match t_counter (snd p) with Some m => begun m (t_start (snd p)) (past ++ es) | None => True end) /\
  (exists new, recorded w' n = recorded w n ++ new /\
     Forall (fun v => exists id now t0, In (Destroy id now) es /\ begun n t0 (past ++ es) /\ v = now - t0) new).
Proof.
  induction es as [|e es IH]; intros w w' past n I H E.
  - cbn in E. injection E as <-. rewrite app_nil_r. split; [assumption|]. exists []. rewrite app_nil_r. split; [reflexivity|constructor].
  - cbn [run] in E. destruct (step w e) as [w1|] eqn:S; [|discriminate].
    assert (MONO : forall m t0 a b, begun m t0 a -> begun m t0 (a ++ b)).
    { intros m t0 a b (id & Q). exists id. apply in_or_app. left. assumption. }
    assert (H1 : forall p, In p (timers w1) -> match t_counter (snd p) with Some m => begun m (t_start (snd p)) (past ++ [e]) | None => True end).
    { assert (OLD : forall t, (exists id, In (id, t) (timers w)) -> match t_counter t with Some m => begun m (t_start t) (past ++ [e]) | None => True end).
      { intros t (id & Q). specialize (H _ Q). cbn [snd] in H. destruct (t_counter t); [apply MONO|]; assumption. }
      destruct e as [id name now|id|id from|id from|id now]; cbn [step] in S.
      - destruct (get_timer w id) eqn:G; [discriminate|]. injection S as <-. cbn [timers]. intros p [<- | Hp].
        + cbn. exists id. apply in_or_app. right. left. reflexivity.
        + apply OLD. exists (fst p). destruct p; assumption.
      - destruct (get_timer w id) eqn:G; [discriminate|]. injection S as <-. cbn [timers]. intros p [<- | Hp]; [exact Logic.I|].
        apply OLD. exists (fst p). destruct p; assumption.
      - destruct (get_timer w id) eqn:G; [discriminate|]. destruct (get_timer w from) as [t|] eqn:F; [|discriminate]. injection S as <-.
        cbn [timers]. intros p [<- | Hp]; [apply OLD; exists from; apply lookup_nat_in, F|].
        apply update_in in Hp as [-> | Hp]; [exact Logic.I|]. apply OLD. exists (fst p). destruct p; assumption.
      - destruct (get_timer w id) eqn:G; [|discriminate]. destruct (get_timer w from) as [t'|] eqn:F; [|discriminate]. injection S as <-.
        cbn [timers]. intros p Hp. apply update_in in Hp as [-> | Hp]; [apply OLD; exists from; apply lookup_nat_in, F|].
        apply update_in in Hp as [-> | Hp]; [exact Logic.I|]. apply OLD. exists (fst p). destruct p; assumption.
      - destruct (get_timer w id) as [t|] eqn:G; [|discriminate]. destruct (t_counter t); injection S as <-; cbn [timers]; intros p Hp;
          apply delete_in in Hp; apply OLD; exists (fst p); destruct p; assumption. }
    destruct (IH w1 w' (past ++ [e]) n (step_inv w e w1 I S) H1 E) as (A & new & B & C).
    rewrite <- app_assoc in A, C. cbn [app] in A, C. split; [exact A|].
    rewrite (step_recorded w e w1 n I S), <- app_assoc in B. eexists. split; [exact B|].
    apply Forall_app. split.
    + destruct e as [id name now|id|id from|id from|id now]; try constructor.
      destruct (get_timer w id) as [t|] eqn:G; [|constructor]. destruct (running_for n t) eqn:R; [|constructor].
      apply Forall_cons; [|constructor]. exists id, now, (t_start t). split; [left; reflexivity|]. split; [|reflexivity].
      specialize (H _ (lookup_nat_in _ _ _ G)). cbn [snd] in H. unfold running_for in R. destruct (t_counter t); [|discriminate].
      apply String.eqb_eq in R. subst. apply MONO, H.
    + eapply Forall_impl; [|exact C]. intros v (id & now & t0 & X & Y & Z). exists id, now, t0. split; [right; assumption|]. auto.
Qed.
