(** Checks on the tables of a mechanism and what they imply *)
From Coq Require Import String List ZArith NArith QArith Qreals Reals Lra Lia Bool.
From Verif Require Import MechanismModel MechanismSpec.
Import ListNotations.
Local Open Scope R_scope.

(** ** Sums over reactions *)

(** the combination of all species for the reaction r: sum of a_s nu_{s,r} *)
Definition net_of (r : N) (l : list (Z * N)) : Z := fold_right (fun x acc => if N.eqb (snd x) r then fst x + acc else acc)%Z 0%Z l.
Fixpoint combined (r : N) (a : list Q) (rows : list (list (Z * N))) : Q :=
  match a, rows with
  | x :: a', l :: rows' => (x * inject_Z (net_of r l) + combined r a' rows')%Q
  | _, _ => 0%Q
  end.
Fixpoint sum_to (n : nat) (f : nat -> R) : R := match n with O => 0 | S k => sum_to k f + f k end.

Definition in_range (n : N) (rows : list (list (Z * N))) : bool := forallb (forallb (fun x => N.ltb (snd x) n)) rows.

Lemma sum_to_ext n f g : (forall k, (k < n)%nat -> f k = g k) -> sum_to n f = sum_to n g.
Proof. induction n; cbn; intros H; [reflexivity|]. rewrite IHn, H by auto with arith. reflexivity. Qed.
Lemma sum_to_plus n f g : sum_to n (fun k => f k + g k) = sum_to n f + sum_to n g.
Proof. induction n; cbn; [lra|]. rewrite IHn. lra. Qed.
Lemma sum_to_scal n a f : sum_to n (fun k => a * f k) = a * sum_to n f.
Proof. induction n; cbn; [lra|]. rewrite IHn. lra. Qed.
Lemma sum_to_0 n : sum_to n (fun _ => 0) = 0.
Proof. induction n; cbn; [lra|]. rewrite IHn. lra. Qed.
Lemma sum_to_single n r a : (r < n)%nat -> sum_to n (fun k => if (k =? r)%nat then a else 0) = a.
Proof.
  induction n; cbn; intros H; [lia|]. destruct (Nat.eq_dec n r) as [-> | E].
  - rewrite Nat.eqb_refl. rewrite (sum_to_ext _ _ (fun _ => 0)), sum_to_0; [lra|]. intros k Hk.
    destruct (Nat.eqb_spec k r); [lia|reflexivity].
  - rewrite IHn by lia. destruct (Nat.eqb_spec n r); [contradiction|lra].
Qed.

Lemma production_sum n ws l : forallb (fun x => N.ltb (snd x) n) l = true ->
  production_of ws l = sum_to (N.to_nat n) (fun r => IZR (net_of (N.of_nat r) l) * at_ ws r).
Proof.
  induction l as [|[z r] l IH]; cbn [forallb production_of fold_right net_of fst snd]; intros H.
  - rewrite (sum_to_ext _ _ (fun _ => 0)), sum_to_0; [reflexivity|]. intros; unfold net_of; cbn; lra.
  - apply andb_true_iff in H. destruct H as [H1 H2]. apply N.ltb_lt in H1. fold (production_of ws l). rewrite (IH H2).
    rewrite <- (sum_to_single (N.to_nat n) (N.to_nat r) (IZR z * at_ ws (N.to_nat r))) by lia. rewrite <- sum_to_plus.
    apply sum_to_ext. intros k Hk. cbn [net_of fold_right fst snd]. fold (net_of (N.of_nat k) l).
    destruct (Nat.eqb_spec k (N.to_nat r)) as [-> | E].
    + rewrite N2Nat.id, N.eqb_refl, plus_IZR. ring.
    + destruct (N.eqb_spec r (N.of_nat k)); [subst; rewrite Nat2N.id in E; contradiction|]. ring.
Qed.

Lemma Q2R_inject z : Q2R (inject_Z z) = IZR z.
Proof. unfold Q2R, inject_Z. cbn. lra. Qed.

Lemma dot_production n a ws rows : in_range n rows = true ->
  dot (map Q2R a) (map (production_of ws) rows) = sum_to (N.to_nat n) (fun r => Q2R (combined (N.of_nat r) a rows) * at_ ws r).
Proof.
  revert a. induction rows as [|l rows IH]; intros [|x a] H; cbn [map dot combined].
  1-3: rewrite (sum_to_ext _ _ (fun _ => 0)), sum_to_0; [reflexivity|]; intros; rewrite RMicromega.Q2R_0; ring.
  cbn in H. apply andb_true_iff in H. destruct H as [H1 H2]. rewrite (IH a H2), (production_sum n ws l H1), <- sum_to_scal, <- sum_to_plus.
  apply sum_to_ext. intros k _. rewrite Q2R_plus, Q2R_mult, Q2R_inject. ring.
Qed.

(** ** The check: every combination is within eps of 0 *)
Fixpoint upto (n : nat) (P : N -> bool) : bool := match n with O => true | S k => P (N.of_nat k) && upto k P end.
Lemma upto_spec n P : upto n P = true -> forall k, (k < n)%nat -> P (N.of_nat k) = true.
Proof.
  induction n; cbn; intros H k Hk; [lia|]. apply andb_true_iff in H. destruct H as [H1 H2].
  destruct (Nat.eq_dec k n) as [-> | E]; [exact H1|apply IHn; [exact H2|lia]].
Qed.

Definition near (eps x : Q) : bool := Qle_bool x eps && Qle_bool (- eps)%Q x.
(** Sums for all reactions at once, in a binary tree indexed by the reactions, with weights in units of 2^-60 / 1000 *)
Inductive trie := Leaf | Node (l : trie) (v : Z) (r : trie).
Fixpoint get (p : positive) (t : trie) : Z :=
  match t with
  | Leaf => 0
  | Node l v r => match p with xH => v | xO q => get q l | xI q => get q r end
  end%Z.
Fixpoint add (p : positive) (z : Z) (t : trie) : trie :=
  match p with
  | xH => match t with Leaf => Node Leaf z Leaf | Node l v r => Node l (v + z)%Z r end
  | xO q => match t with Leaf => Node (add q z Leaf) 0%Z Leaf | Node l v r => Node (add q z l) v r end
  | xI q => match t with Leaf => Node Leaf 0%Z (add q z Leaf) | Node l v r => Node l v (add q z r) end
  end.
Lemma get_leaf p : get p Leaf = 0%Z. Proof. destruct p; reflexivity. Qed.
Lemma get_add p q z t : get p (add q z t) = (get p t + (if Pos.eqb q p then z else 0))%Z.
Proof.
  revert p t. induction q as [q IH|q IH|]; intros p t; destruct t as [|l v r]; destruct p as [p|p|]; cbn [add get Pos.eqb];
    rewrite ?IH, ?get_leaf; cbn [get]; rewrite ?get_leaf; lia.
Qed.
Fixpoint trie_all (P : Z -> bool) (t : trie) : bool :=
  match t with Leaf => true | Node l v r => P v && trie_all P l && trie_all P r end.
Lemma trie_all_spec P t p : trie_all P t = true -> P 0%Z = true -> P (get p t) = true.
Proof.
  revert p. induction t as [|l IHl v r IHr]; intros p H Z0; [rewrite get_leaf; exact Z0|]. cbn in H. rewrite !andb_true_iff in H. destruct H as [[H1 H2] H3].
  destruct p; cbn [get]; auto.
Qed.

Definition unit60 : Z := 1152921504606846976000.
Definition scale (x : Q) : Z := (Qnum x * unit60 / Zpos (Qden x))%Z.
Definition scales (x : Q) : bool := (scale x * Zpos (Qden x) =? Qnum x * unit60)%Z.
Lemma scales_spec x : scales x = true -> Q2R x = IZR (scale x) / IZR unit60.
Proof.
  unfold scales. rewrite Z.eqb_eq. intros H. unfold Q2R. apply (f_equal IZR) in H. rewrite !mult_IZR in H.
  assert (A : 0 < IZR (Zpos (Qden x))) by (apply IZR_lt; reflexivity). assert (B : 0 < IZR unit60) by (apply IZR_lt; reflexivity).
  apply Rmult_eq_reg_r with (IZR (Zpos (Qden x)) * IZR unit60); [|apply Rgt_not_eq, Rmult_lt_0_compat; assumption]. field_simplify; lra.
Qed.

Fixpoint add_row (x : Z) (l : list (Z * N)) (t : trie) : trie :=
  match l with [] => t | (z, r) :: l' => add_row x l' (add (N.succ_pos r) (x * z) t) end.
Fixpoint nets (a : list Z) (rows : list (list (Z * N))) (t : trie) : trie :=
  match a, rows with
  | x :: a', l :: rows' => nets a' rows' (if Z.eqb x 0 then t else add_row x l t)
  | _, _ => t
  end.
Lemma get_add_row x l t r : get (N.succ_pos r) (add_row x l t) = (get (N.succ_pos r) t + x * net_of r l)%Z.
Proof.
  revert t. induction l as [|[z r'] l IH]; intros t; cbn [add_row net_of fold_right fst snd]; [lia|]. rewrite IH, get_add. fold (net_of r l).
  assert (E : Pos.eqb (N.succ_pos r') (N.succ_pos r) = N.eqb r' r).
  { destruct (N.eqb_spec r' r) as [->|N]; [apply Pos.eqb_refl|]. apply Pos.eqb_neq. intros E. apply N. destruct r, r'; cbn in E; try lia; f_equal; lia. }
  rewrite E. destruct (N.eqb r' r); lia.
Qed.
Lemma nets_spec a rows t r : forallb scales a = true ->
  IZR (get (N.succ_pos r) (nets (map scale a) rows t)) = IZR (get (N.succ_pos r) t) + IZR unit60 * Q2R (combined r a rows).
Proof.
  revert rows t. induction a as [|x a IH]; intros [|l rows] t H; cbn [map nets combined]; rewrite ?RMicromega.Q2R_0; try ring.
  cbn in H. apply andb_true_iff in H. destruct H as [H1 H2]. rewrite (IH rows _ H2), Q2R_plus, Q2R_mult, Q2R_inject. apply scales_spec in H1. rewrite H1.
  assert (B : 0 < IZR unit60) by (apply IZR_lt; reflexivity).
  replace (IZR unit60 * (IZR (scale x) / IZR unit60 * IZR (net_of r l) + Q2R (combined r a rows))) with (IZR (scale x) * IZR (net_of r l) + IZR unit60 * Q2R (combined r a rows)) by (field; lra).
  rewrite <- mult_IZR, <- Rplus_assoc, <- plus_IZR. f_equal. f_equal. destruct (Z.eqb_spec (scale x) 0) as [-> | N]; [lia|]. rewrite get_add_row. lia.
Qed.

Definition balanced (t : tables) (a : list Q) (eps : Q) : bool :=
  in_range (N.of_nat (length (reactions t))) (production t) && forallb scales a && Z.leb 0 (scale eps) &&
  trie_all (fun z => Z.leb (Z.abs z) (scale eps)) (nets (map scale a) (production t) Leaf).
Lemma scale_le_Q x : IZR (scale x) <= IZR unit60 * Q2R x.
Proof.
  unfold scale, Q2R. assert (A : 0 < IZR (Zpos (Qden x))) by (apply IZR_lt; reflexivity).
  apply Rmult_le_reg_r with (IZR (Zpos (Qden x))); [exact A|]. replace (IZR unit60 * (IZR (Qnum x) * / IZR (Zpos (Qden x))) * IZR (Zpos (Qden x))) with (IZR unit60 * IZR (Qnum x)) by (field; lra).
  rewrite <- !mult_IZR. apply IZR_le. pose proof (Z.mul_div_le (Qnum x * unit60) (Zpos (Qden x)) (Pos2Z.is_pos _)). lia.
Qed.
Lemma balanced_spec t a eps : balanced t a eps = true ->
  in_range (N.of_nat (length (reactions t))) (production t) = true /\ forall r, Rabs (Q2R (combined r a (production t))) <= Q2R eps.
Proof.
  unfold balanced. rewrite !andb_true_iff. intros [[[H1 H2] H0] H3]. split; [exact H1|]. intros r. assert (B : 0 < IZR unit60) by (apply IZR_lt; reflexivity).
  pose proof (trie_all_spec _ _ (N.succ_pos r) H3 H0) as H4. apply Z.leb_le in H4. apply IZR_le in H4. rewrite abs_IZR in H4.
  pose proof (nets_spec a (production t) Leaf r H2) as E. rewrite get_leaf, Rplus_0_l in E. rewrite E, Rabs_mult, (Rabs_pos_eq (IZR unit60)) in H4 by lra.
  pose proof (scale_le_Q eps). apply Rmult_le_reg_l with (IZR unit60); [exact B|]. lra.
Qed.

Lemma near_spec eps x : near eps x = true -> Rabs (Q2R x) <= Q2R eps.
Proof.
  unfold near. rewrite andb_true_iff, !Qle_bool_iff. intros [A B]. apply Qle_Rle in A. apply Qle_Rle in B. rewrite Q2R_opp in B.
  apply Rabs_le. lra.
Qed.

Lemma rates_length v T p c M l ws : rates_of v T p c M l = Some ws -> length ws = length l.
Proof.
  revert ws. induction l as [|[k fs] l IH]; cbn; intros ws H; [injection H as <-; reflexivity|].
  destruct (rate_coefficient v T p M k); [|discriminate]. destruct (rates_of v T p c M l); [|discriminate].
  injection H as <-. cbn. rewrite (IH l0); reflexivity.
Qed.
Lemma reaction_rates_length t c T p ws : reaction_rates t c T p = Some ws -> length ws = length (reactions t).
Proof. unfold reaction_rates. destruct (Rlt_dec 0 T); [apply rates_length|discriminate]. Qed.

Lemma sum_abs_to l : sum_abs l = sum_to (length l) (fun r => Rabs (at_ l r)).
Proof.
  induction l as [|x l IH] using rev_ind; [reflexivity|]. rewrite app_length. cbn [length]. rewrite Nat.add_1_r. cbn [sum_to].
  unfold sum_abs in *. rewrite fold_right_app. cbn [fold_right].
  assert (E : forall l a, fold_right (fun x acc => Rabs x + acc) a l = fold_right (fun x acc => Rabs x + acc) 0 l + a).
  { clear. induction l; intros; cbn; [lra|]. rewrite IHl. lra. }
  rewrite E, IH. f_equal.
  - apply sum_to_ext. intros k Hk. unfold at_. rewrite app_nth1 by exact Hk. reflexivity.
  - unfold at_. rewrite app_nth2, Nat.sub_diag by lia. cbn. lra.
Qed.

Lemma sum_to_bound n f g : (forall k, (k < n)%nat -> Rabs (f k) <= g k) -> Rabs (sum_to n f) <= sum_to n g.
Proof.
  induction n; cbn; intros H; [rewrite Rabs_R0; lra|]. eapply Rle_trans; [apply Rabs_triang|].
  apply Rplus_le_compat; [apply IHn; intros; apply H; lia|apply H; lia].
Qed.

Theorem balanced_sound t a eps c T p ws cdot : balanced t a eps = true ->
  reaction_rates t c T p = Some ws -> ComputeProductionRates t c T p = Some cdot ->
  Rabs (dot (map Q2R a) cdot) <= Q2R eps * sum_abs ws.
Proof.
  unfold ComputeProductionRates. intros H Hw Hc. rewrite Hw in Hc. injection Hc as <-. apply balanced_spec in H.
  destruct H as [H1 H2]. rewrite (dot_production _ a ws _ H1), Nat2N.id, sum_abs_to, (reaction_rates_length _ _ _ _ _ Hw), <- sum_to_scal.
  apply sum_to_bound. intros k Hk. rewrite Rabs_mult. apply Rmult_le_compat_r; [apply Rabs_pos|]. apply H2.
Qed.

Theorem balanced_exact t a c T p cdot : balanced t a 0 = true -> ComputeProductionRates t c T p = Some cdot ->
  dot (map Q2R a) cdot = 0.
Proof.
  intros H Hc. assert (exists ws, reaction_rates t c T p = Some ws) as [ws Hw].
  { unfold ComputeProductionRates in Hc. destruct (reaction_rates t c T p); [eauto|discriminate]. }
  pose proof (balanced_sound _ _ _ _ _ _ _ _ H Hw Hc) as B. rewrite RMicromega.Q2R_0, Rmult_0_l in B.
  pose proof (Rabs_pos (dot (map Q2R a) cdot)). destruct (Req_dec (dot (map Q2R a) cdot) 0) as [E|E]; [exact E|].
  apply Rabs_pos_lt in E. lra.
Qed.

Definition element_table (labels : list string) (e : element) : list Q := map (fun s => inject_Z (atoms e s)) labels.
Definition conserves (t : tables) (labels : list string) : bool :=
  forallb (fun e => balanced t (element_table labels e) 0) [El_C; El_H; El_O; El_N; El_AR; El_HE].

Theorem conserves_sound t labels c T p cdot e : conserves t labels = true -> ComputeProductionRates t c T p = Some cdot ->
  element_density labels e cdot = 0.
Proof.
  intros H Hc. unfold conserves in H. rewrite forallb_forall in H.
  assert (B : balanced t (element_table labels e) 0 = true) by (apply H; destruct e; cbn; tauto).
  unfold element_density. rewrite <- (balanced_exact t _ c T p cdot B Hc). f_equal. unfold element_table. rewrite map_map.
  apply map_ext. intros. rewrite Q2R_inject. reflexivity.
Qed.
