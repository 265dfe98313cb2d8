(** Averages, states, fluxes, connections. *)
From Coq Require Import List Reals ZArith Bool Arith Lia Lra Psatz Permutation.
From Verif Require Import MultiBlockModel MultiBlockSpec.
Import ListNotations.
Local Open Scope R_scope.

Lemma sum_map_add {A} (f : A -> R) l : sum (map f l) = add_up f l.
Proof. induction l as [|a l IH]; [reflexivity|]. cbn. f_equal. exact IH. Qed.
Lemma add_up_app {A} (f : A -> R) l m : add_up f (l ++ m) = add_up f l + add_up f m.
Proof. induction l as [|a l IH]; cbn; [ring|]. rewrite IH. ring. Qed.
Lemma sum_concat {A} (f : A -> R) (ls : list (list A)) : sum (map (fun l => sum (map f l)) ls) = add_up f (concat ls).
Proof. induction ls as [|l ls IH]; [reflexivity|]. cbn [concat]. rewrite add_up_app. rewrite <- sum_map_add at 1. cbn. f_equal. exact IH. Qed.
Lemma sum_app l m : sum (l ++ m) = sum l + sum m.
Proof. unfold sum. induction l as [|a l IH]; cbn; [ring|]. rewrite IH. ring. Qed.
Lemma sum_concat2 {A} (f : A -> R) (bs : list (list (list A))) : sum (map (fun rank => sum (map (fun tile => sum (map f tile)) rank)) bs) = add_up f (concat (concat bs)).
Proof.
  rewrite <- sum_concat. induction bs as [|b bs IH]; [reflexivity|]. cbn [concat]. rewrite map_app, sum_app, <- IH. reflexivity.
Qed.
Lemma add_up_ext {A} (f g : A -> R) l : (forall x, In x l -> f x = g x) -> add_up f l = add_up g l.
Proof. induction l as [|a l IH]; intros H; [reflexivity|]. cbn. rewrite (H a (or_introl eq_refl)), IH; [reflexivity|]. intros; apply H; right; assumption. Qed.
Lemma add_up_scale {A} (f : A -> R) c l : add_up (fun x => c * f x) l = c * add_up f l.
Proof. induction l as [|a l IH]; cbn; [ring|]. rewrite IH. ring. Qed.
Lemma add_up_le {A} (f g : A -> R) l : (forall x, In x l -> f x <= g x) -> add_up f l <= add_up g l.
Proof. induction l as [|a l IH]; intros H; [cbn; lra|]. cbn. pose proof (H a (or_introl eq_refl)). specialize (IH (fun x Hx => H x (or_intror Hx))). lra. Qed.
Lemma add_up_pos {A} (f : A -> R) l a : (forall x, In x l -> 0 <= f x) -> In a l -> 0 < f a -> 0 < add_up f l.
Proof.
  induction l as [|b l IH]; intros H I P; [destruct I|]. cbn. pose proof (H b (or_introl eq_refl)). destruct I as [-> | I].
  - assert (0 <= add_up f l); [|lra]. replace 0 with (add_up (fun _ : A => 0 * 0) l); [apply add_up_le; intros; rewrite Rmult_0_l; apply H; right; assumption|]. rewrite add_up_scale. ring.
  - specialize (IH (fun x Hx => H x (or_intror Hx)) I P). lra.
Qed.
Lemma add_up_perm {A} (f : A -> R) l m : Permutation l m -> add_up f l = add_up f m.
Proof. induction 1; cbn; lra. Qed.

(** ** Averages *)
Definition at_index (i : Z) (c : pcell) : R := if Z.eqb (cell_x c) i then alpha c else 0.
Definition fractions (cs : list pcell) : Prop := forall c, In c cs -> 0 <= alpha c <= 1.
Lemma total_volume v blocks i : ReduceTotalVolume v blocks i = v * add_up (at_index i) (concat (concat blocks)).
Proof.
  unfold ReduceTotalVolume. rewrite (sum_concat2 (fun c => if Z.eqb (cell_x c) i then alpha c * v else 0)). rewrite <- add_up_scale. apply add_up_ext. intros c _. unfold at_index. destruct (Z.eqb _ _); ring.
Qed.
Lemma average_flat v blocks i comp : 0 < v -> fractions (concat (concat blocks)) -> 0 < add_up (at_index i) (concat (concat blocks)) ->
  AverageConservativeHierarchyStates v blocks i comp = add_up (fun c => at_index i c / add_up (at_index i) (concat (concat blocks)) * q c comp) (concat (concat blocks)).
Proof.
  intros Hv F P. unfold AverageConservativeHierarchyStates.
  rewrite (sum_concat2 (fun c => if Z.eqb (cell_x c) i then if Rlt_dec 0 (alpha c) then alpha c * v / ReduceTotalVolume v blocks i * q c comp else 0 else 0)).
  rewrite total_volume. apply add_up_ext. intros c Hc. unfold at_index at 2. destruct (Z.eqb _ _).
  - destruct (Rlt_dec 0 (alpha c)); [field; lra|]. specialize (F c Hc). replace (alpha c) with 0 by lra. field. lra.
  - field. lra.
Qed.
Lemma average_balance v blocks i comp : 0 < v -> fractions (concat (concat blocks)) -> 0 < add_up (at_index i) (concat (concat blocks)) ->
  add_up (at_index i) (concat (concat blocks)) * AverageConservativeHierarchyStates v blocks i comp = add_up (fun c => at_index i c * q c comp) (concat (concat blocks)).
Proof.
  intros Hv F P. rewrite average_flat by assumption. rewrite <- add_up_scale. apply add_up_ext. intros c Hc. field. lra.
Qed.
Lemma average_perm v blocks blocks' i comp : Permutation (concat (concat blocks)) (concat (concat blocks')) ->
  AverageConservativeHierarchyStates v blocks i comp = AverageConservativeHierarchyStates v blocks' i comp.
Proof.
  intros P. unfold AverageConservativeHierarchyStates. assert (E : ReduceTotalVolume v blocks i = ReduceTotalVolume v blocks' i) by (rewrite !total_volume; f_equal; apply add_up_perm; exact P). rewrite E.
  rewrite !(sum_concat2 (fun c => if Z.eqb (cell_x c) i then if Rlt_dec 0 (alpha c) then alpha c * v / ReduceTotalVolume v blocks' i * q c comp else 0 else 0)). apply add_up_perm. exact P.
Qed.
Lemma average_bounds v blocks i comp lo hi : 0 < v -> fractions (concat (concat blocks)) -> 0 < add_up (at_index i) (concat (concat blocks)) ->
  (forall c, In c (concat (concat blocks)) -> cell_x c = i -> 0 < alpha c -> lo <= q c comp <= hi) ->
  lo <= AverageConservativeHierarchyStates v blocks i comp <= hi.
Proof.
  intros Hv F P B. pose proof (average_balance v blocks i comp Hv F P) as E. set (cs := concat (concat blocks)) in *. set (a := AverageConservativeHierarchyStates v blocks i comp) in *. set (t := add_up (at_index i) cs) in *.
  assert (W : forall c, In c cs -> at_index i c * lo <= at_index i c * q c comp <= at_index i c * hi).
  { intros c Hc. specialize (B c Hc). specialize (F c Hc). unfold at_index. destruct (Z.eqb_spec (cell_x c) i); [|lra]. destruct (Rlt_dec 0 (alpha c)) as [A|A]; [specialize (B e A); nra|]. replace (alpha c) with 0 by lra. lra. }
  assert (L : lo * t <= t * a). { rewrite E. unfold t. rewrite <- add_up_scale. apply add_up_le. intros c Hc. specialize (W c Hc). lra. }
  assert (U : t * a <= hi * t). { rewrite E. unfold t. rewrite <- add_up_scale. apply add_up_le. intros c Hc. specialize (W c Hc). lra. }
  split; nra.
Qed.

(** ** Admissible states form a convex cone *)
Lemma square_sum_scale n w s : square_sum n (fun k => w * s k) = w * w * square_sum n s.
Proof. induction n as [|n IH]; cbn [square_sum]; [ring|]. rewrite IH. ring. Qed.
Lemma square_sum_ext n s t : (forall k, s k = t k) -> square_sum n s = square_sum n t.
Proof. intros H. induction n as [|n IH]; cbn [square_sum]; [reflexivity|]. rewrite IH, !H. reflexivity. Qed.
Lemma square_sum_nonneg n s : 0 <= square_sum n s.
Proof. induction n as [|n IH]; cbn [square_sum]; [lra|]. pose proof (Rle_0_sqr (s (S n))) as P. unfold Rsqr in P. lra. Qed.
Lemma admissible_ext n s t : (forall k, s k = t k) -> admissible n s -> admissible n t.
Proof. intros H [A B]. unfold admissible. rewrite <- (square_sum_ext n s t H), <- !H. split; assumption. Qed.
Lemma admissible_scale n w s : 0 < w -> admissible n s -> admissible n (fun k => w * s k).
Proof. intros Hw [A B]. unfold admissible. rewrite square_sum_scale. split; [nra|]. assert (0 < w * w) by nra. assert (w * w * square_sum n s < w * w * (2 * s 0%nat * s (S n))) by (apply Rmult_lt_compat_l; assumption). lra. Qed.
Lemma square_sum_add n s t a b : 0 < a -> 0 < b -> square_sum n (fun k => s k + t k) <= (a + b) * (square_sum n s / a + square_sum n t / b).
Proof.
  intros Ha Hb. induction n as [|n IH]; cbn [square_sum]; [unfold Rdiv; rewrite !Rmult_0_l; lra|].
  set (x := s (S n)). set (y := t (S n)). assert (P : (x + y) * (x + y) <= (a + b) * (x * x / a + y * y / b)).
  { assert (E : (a + b) * (x * x / a + y * y / b) - (x + y) * (x + y) = (b * x - a * y) * (b * x - a * y) / (a * b)) by (field; lra).
    assert (0 <= (b * x - a * y) * (b * x - a * y) / (a * b)); [|lra]. apply Rmult_le_pos; [apply Rle_0_sqr|left; apply Rinv_0_lt_compat; nra]. }
  replace ((a + b) * ((square_sum n s + x * x) / a + (square_sum n t + y * y) / b)) with ((a + b) * (square_sum n s / a + square_sum n t / b) + (a + b) * (x * x / a + y * y / b)) by (field; lra). lra.
Qed.
Lemma admissible_add n s t : admissible n s -> admissible n t -> admissible n (fun k => s k + t k).
Proof.
  intros [A B] [C D]. unfold admissible. split; [lra|]. apply Rle_lt_trans with (1 := square_sum_add n s t (s 0%nat) (t 0%nat) A C).
  assert (E1 : square_sum n s / s 0%nat < 2 * s (S n)) by (apply Rmult_lt_reg_r with (s 0%nat); [exact A|]; unfold Rdiv; rewrite Rmult_assoc, Rinv_l by lra; lra).
  assert (E2 : square_sum n t / t 0%nat < 2 * t (S n)) by (apply Rmult_lt_reg_r with (t 0%nat); [exact C|]; unfold Rdiv; rewrite Rmult_assoc, Rinv_l by lra; lra).
  replace (2 * (s 0%nat + t 0%nat) * (s (S n) + t (S n))) with ((s 0%nat + t 0%nat) * (2 * s (S n) + 2 * t (S n))) by ring. apply Rmult_lt_compat_l; lra.
Qed.
Lemma admissible_sum {A} n (w : A -> R) (s : A -> nat -> R) l : (forall c, In c l -> 0 <= w c) -> (forall c, In c l -> 0 < w c -> admissible n (s c)) ->
  (exists c, In c l /\ 0 < w c) -> admissible n (fun k => add_up (fun c => w c * s c k) l).
Proof.
  intros W S. assert (G : (forall c, In c l -> w c = 0) \/ admissible n (fun k => add_up (fun c => w c * s c k) l)).
  { induction l as [|a l IH]; [left; intros c []|]. specialize (IH (fun c Hc => W c (or_intror Hc)) (fun c Hc => S c (or_intror Hc))). pose proof (W a (or_introl eq_refl)) as Wa. destruct (Rlt_dec 0 (w a)) as [P|P].
    - right. pose proof (admissible_scale n (w a) (s a) P (S a (or_introl eq_refl) P)) as Aa. destruct IH as [Z|Ad].
      + apply (admissible_ext n (fun k => w a * s a k)); [|exact Aa]. intros k. cbn. rewrite (add_up_ext _ (fun _ => 0 * 0)) by (intros c Hc; rewrite (Z c Hc); ring). rewrite add_up_scale. ring.
      + apply (admissible_add n (fun k => w a * s a k) (fun k => add_up (fun c => w c * s c k) l)); assumption.
    - assert (w a = 0) as E by lra. destruct IH as [Z|Ad]; [left; intros c [<- | Hc]; auto|]. right. apply (admissible_ext n (fun k => add_up (fun c => w c * s c k) l)); [|exact Ad]. intros k. cbn. rewrite E. ring. }
  intros (c & Hc & P). destruct G as [Z|Ad]; [specialize (Z c Hc); lra|exact Ad].
Qed.
Lemma exists_pos {A} (f : A -> R) l : (forall c, In c l -> 0 <= f c) -> 0 < add_up f l -> exists c, In c l /\ 0 < f c.
Proof.
  induction l as [|a l IH]; cbn; intros W P; [lra|]. destruct (Rlt_dec 0 (f a)) as [Q|Q]; [exists a; auto|]. destruct IH as (c & Hc & Pc); [intros; apply W; auto|lra|]. exists c. auto.
Qed.
Lemma average_admissible n v blocks i : 0 < v -> fractions (concat (concat blocks)) -> 0 < add_up (at_index i) (concat (concat blocks)) ->
  (forall c, In c (concat (concat blocks)) -> cell_x c = i -> 0 < alpha c -> admissible n (q c)) ->
  admissible n (AverageConservativeHierarchyStates v blocks i).
Proof.
  intros Hv F P S. set (t := add_up (at_index i) (concat (concat blocks))) in *.
  apply (admissible_ext n (fun k => add_up (fun c => at_index i c / t * q c k) (concat (concat blocks)))); [intros k; symmetry; apply average_flat; assumption|].
  assert (W : forall c, In c (concat (concat blocks)) -> 0 <= at_index i c) by (intros c Hc; specialize (F c Hc); unfold at_index; destruct (Z.eqb _ _); lra).
  assert (T : 0 < / t) by (apply Rinv_0_lt_compat; exact P).
  apply (admissible_sum n (fun c => at_index i c / t) (fun c => q c)).
  - intros c Hc. specialize (W c Hc). unfold Rdiv. nra.
  - intros c Hc Pc. apply S; [exact Hc| |]; unfold at_index, Rdiv in Pc; destruct (Z.eqb_spec (cell_x c) i); try assumption; try lra; nra.
  - destruct (exists_pos (at_index i) _ W P) as (c & Hc & Pc). exists c. split; [exact Hc|]. unfold Rdiv. nra.
Qed.

(** ** States of different dimensions *)
Lemma momentum_square n s : momentum_sq n s = square_sum n s.
Proof. induction n as [|n IH]; cbn [momentum_sq square_sum]; [reflexivity|]. rewrite IH. reflexivity. Qed.
Lemma square_sum_1 n s : (1 <= n)%nat -> s 1%nat * s 1%nat <= square_sum n s.
Proof. intros H. destruct n as [|n]; [lia|]. clear H. induction n as [|n IH]; [cbn [square_sum]; lra|]. remember (S n) as m. cbn [square_sum]. pose proof (Rle_0_sqr (s (S m))) as P. unfold Rsqr in P. lra. Qed.
Lemma reduce_admissible n s : (1 <= n)%nat -> admissible n s -> admissible 1 (ReduceStateDimension n s).
Proof.
  intros H [A B]. unfold admissible, ReduceStateDimension. cbn [square_sum]. rewrite Nat.add_0_r. split; [exact A|]. pose proof (square_sum_1 n s H). lra.
Qed.
Lemma embed_square n s : (1 <= n)%nat -> square_sum n (EmbedState n s) = s 1%nat * s 1%nat.
Proof.
  intros H. assert (G : forall m, (1 <= m <= n)%nat -> square_sum m (EmbedState n s) = s 1%nat * s 1%nat).
  { induction m as [|m IH]; intros Hm; [lia|]. cbn [square_sum]. destruct m as [|m]; [cbn [square_sum]; unfold EmbedState; cbn [Nat.eqb]; ring|]. rewrite IH by lia. unfold EmbedState. cbn [Nat.eqb]. destruct (Nat.leb_spec (S (S m)) n) as [_|L]; [ring|lia]. }
  apply G. lia.
Qed.
Lemma embed_energy n s : (1 <= n)%nat -> EmbedState n s (S n) = s 2%nat.
Proof.
  intros H. unfold EmbedState. cbn [Nat.eqb]. destruct (Nat.eqb_spec n 0) as [E|_]; [lia|]. destruct (Nat.leb_spec (S n) n); [lia|]. f_equal. lia.
Qed.
Lemma reduce_embed n s k : (1 <= n)%nat -> ReduceStateDimension n (EmbedState n s) k = s k.
Proof.
  intros H. unfold ReduceStateDimension. destruct k as [|[|k]]; [reflexivity|reflexivity|]. unfold EmbedState.
  destruct (Nat.eqb_spec (S n + k) 0); [lia|]. destruct (Nat.eqb_spec (S n + k) 1); [lia|]. destruct (Nat.leb_spec (S n + k) n); [lia|]. f_equal. lia.
Qed.
Lemma embed_pressure n g s : (1 <= n)%nat -> pressure n g (EmbedState n s) = pressure 1 g s.
Proof. intros H. unfold pressure, energy, density. rewrite !momentum_square, embed_square, embed_energy by exact H. cbn [square_sum]. unfold EmbedState. cbn [Nat.eqb]. rewrite Rplus_0_l. reflexivity. Qed.
Lemma reduce_pressure n g s : (1 <= n)%nat -> 0 < g -> 0 < s 0%nat -> pressure 1 g (ReduceStateDimension n s) = pressure n g s + (square_sum n s - s 1%nat * s 1%nat) / (2 * s 0%nat * g).
Proof.
  intros H G D. unfold pressure, energy, density. rewrite !momentum_square. unfold ReduceStateDimension. cbn [square_sum]. rewrite Nat.add_0_r. field. lra.
Qed.
Lemma square_sum_transverse n s : (1 <= n)%nat -> (square_sum n s = s 1%nat * s 1%nat <-> forall d, (2 <= d <= n)%nat -> s d = 0).
Proof.
  intros H. destruct n as [|n]; [lia|]. clear H. induction n as [|n IH]; [split; [intros _ d Hd; lia|intros _; cbn [square_sum]; ring]|].
  pose proof (square_sum_1 (S n) s ltac:(lia)) as L. remember (S n) as m. cbn [square_sum]. pose proof (Rle_0_sqr (s (S m))) as P. unfold Rsqr in P. split.
  - intros E d Hd. assert (E1 : square_sum m s = s 1%nat * s 1%nat) by lra. destruct (Nat.eq_dec d (S m)) as [-> | N]; [assert (s (S m) * s (S m) = 0) as Q by lra; apply Rsqr_0_uniq; exact Q|]. apply (proj1 IH E1). lia.
  - intros Hz. rewrite (Hz (S m)) by lia. rewrite (proj2 IH) by (intros d Hd; apply Hz; lia). ring.
Qed.

(** ** Averages with a normal *)
Definition chosen (c : ncell) : R := if selected c then 1 else 0.
Lemma normal_bounds v blocks comp lo hi : 0 < v -> (forall c, In c (concat (concat blocks)) -> selected c = true -> 0 < n_alpha c <= 1 /\ lo <= n_q c comp <= hi /\ lo <= neighbor_q c comp <= hi) ->
  (exists c, In c (concat (concat blocks)) /\ selected c = true) -> lo <= AverageStates_normal v blocks comp <= hi.
Proof.
  intros Hv B (c0 & Hc0 & S0). assert (P : 0 < add_up chosen (concat (concat blocks))).
  { apply (add_up_pos _ _ c0); [|exact Hc0|unfold chosen; rewrite S0; lra]. intros c _. unfold chosen. destruct (selected c); lra. }
  assert (T : ReduceTotalVolume_normal v blocks = v * add_up chosen (concat (concat blocks))).
  { unfold ReduceTotalVolume_normal. rewrite (sum_concat2 (fun c => if selected c then v else 0)), <- add_up_scale. apply add_up_ext. intros c _. unfold chosen. destruct (selected c); ring. }
  unfold AverageStates_normal. rewrite T.
  rewrite (sum_concat2 (fun c => if (if Rlt_dec 0 (n_alpha c) then true else false) && selected c then v / (v * add_up chosen (concat (concat blocks))) * (n_alpha c * n_q c comp + (1 - n_alpha c) * neighbor_q c comp) else 0)).
  set (t := add_up chosen (concat (concat blocks))) in *. assert (It : 0 < / t) by (apply Rinv_0_lt_compat; exact P).
  assert (K : forall z, z = add_up (fun c => / t * z * chosen c) (concat (concat blocks))) by (intros z; rewrite add_up_scale; fold t; field; lra).
  split; [rewrite (K lo)|rewrite (K hi)]; apply add_up_le; intros c Hc; specialize (B c Hc); unfold chosen; (destruct (selected c); [|rewrite andb_false_r; lra]); destruct (B eq_refl) as (A & Q1 & Q2); (destruct (Rlt_dec 0 (n_alpha c)); [|lra]); cbn [andb]; replace (v / (v * t)) with (/ t) by (field; lra);
  rewrite Rmult_1_r; apply Rmult_le_compat_l; try lra; nra.
Qed.

(** ** Fluxes *)
Definition faces (tiles : list (list (fabtype * list pface))) : list (fabtype * pface) := concat (map (fun tile => map (fun f => (fst tile, f)) (snd tile)) (concat tiles)).
Lemma on_boundary_flat b value tiles : on_boundary b value tiles = add_up (fun p => if Z.eqb (face_x (snd p)) b then value (fst p) (snd p) else 0) (faces tiles).
Proof.
  unfold on_boundary, faces. induction tiles as [|r tiles IH]; [reflexivity|]. cbn [map concat sum fold_right]. change (fold_right Rplus 0) with sum. rewrite map_app, concat_app, add_up_app, IH. f_equal. clear IH.
  induction r as [|[ty fs] r IH]; [reflexivity|]. cbn [map concat sum fold_right fst snd]. change (fold_right Rplus 0) with sum. rewrite add_up_app, IH. f_equal. rewrite sum_map_add. clear. induction fs as [|f fs IH]; [reflexivity|]. cbn. rewrite IH. reflexivity.
Qed.

(** ** Connections *)
Lemma conditions_spec of conns id k : In k (conditions of conns id) <-> exists c, nth_error conns k = Some c /\ of c = id.
Proof.
  unfold conditions. rewrite filter_In, in_seq. split.
  - intros [_ H]. destruct (nth_error conns k) as [c|]; [|discriminate]. apply Nat.eqb_eq in H. eauto.
  - intros (c & E & H). rewrite E, H, Nat.eqb_refl. split; [|reflexivity]. assert (k < length conns)%nat by (apply nth_error_Some; congruence). lia.
Qed.
Lemma zip_in {A B} (l : list A) (m : list B) a b : In (a, b) (zip l m) <-> exists k, nth_error l k = Some a /\ nth_error m k = Some b.
Proof.
  revert m. induction l as [|x l IH]; intros [|y m]; cbn [zip In].
  - split; [tauto|]. intros (k & H & _). destruct k; discriminate.
  - split; [tauto|]. intros (k & H & _). destruct k; discriminate.
  - split; [tauto|]. intros (k & _ & H). destruct k; discriminate.
  - rewrite IH. split.
    + intros [E|(k & H1 & H2)]; [injection E as -> ->; exists 0%nat; split; reflexivity|exists (S k); split; assumption].
    + intros ([|k] & H1 & H2); cbn in H1, H2; [left; congruence|right; exists k; split; assumption].
Qed.
Lemma renewed_in of conns id k c : In (k, c) (renewed of conns id) <-> of c = id /\ exists j, nth_error conns j = Some c /\ nth_error (conditions of conns id) j = Some k.
Proof.
  unfold renewed. rewrite in_map_iff. split.
  - intros ([c' k'] & E & H). cbn in E. injection E as -> ->. apply filter_In in H. destruct H as [H O]. cbn in O. apply Nat.eqb_eq in O. apply zip_in in H. auto.
  - intros (O & H). exists (c, k). split; [reflexivity|]. apply filter_In. split; [apply zip_in; exact H|]. cbn. apply Nat.eqb_eq. exact O.
Qed.
Lemma filter_seq_prefix (p : nat -> bool) a b : (forall k, (k < a)%nat -> p k = true) -> (forall k, (a <= k)%nat -> p k = false) -> filter p (seq 0 (a + b)) = seq 0 a.
Proof.
  intros H1 H2. rewrite seq_app, filter_app. replace (filter p (seq (0 + a) b)) with (@nil nat).
  - rewrite app_nil_r. assert (G : forall l, (forall k, In k l -> p k = true) -> filter p l = l) by (induction l as [|x l IH]; intros Hl; [reflexivity|]; cbn; rewrite (Hl x (or_introl eq_refl)), IH; [reflexivity|intros; apply Hl; right; assumption]).
    apply G. intros k Hk. apply in_seq in Hk. apply H1. lia.
  - symmetry. assert (G : forall l, (forall k, In k l -> p k = false) -> filter p l = []) by (induction l as [|x l IH]; intros Hl; [reflexivity|]; cbn; rewrite (Hl x (or_introl eq_refl)), IH; [reflexivity|intros; apply Hl; right; assumption]).
    apply G. intros k Hk. apply in_seq in Hk. apply H2. lia.
Qed.
Lemma conditions_first of A B id : (forall c, In c A -> of c = id) -> (forall c, In c B -> of c <> id) -> conditions of (A ++ B) id = seq 0 (length A).
Proof.
  intros HA HB. unfold conditions. rewrite app_length. apply filter_seq_prefix.
  - intros k Hk. rewrite nth_error_app1 by exact Hk. destruct (nth_error A k) as [c|] eqn:E; [apply Nat.eqb_eq, HA, (nth_error_In _ _ E)|apply nth_error_None in E; lia].
  - intros k Hk. rewrite nth_error_app2 by exact Hk. destruct (nth_error B (k - length A)) as [c|] eqn:E; [apply Nat.eqb_neq, HB, (nth_error_In _ _ E)|reflexivity].
Qed.
Lemma nth_error_seq n k : nth_error (seq 0 n) k = if Nat.ltb k n then Some k else None.
Proof.
  destruct (Nat.ltb_spec k n) as [H|H]; [|apply nth_error_None; rewrite seq_length; exact H]. rewrite (nth_error_nth' _ 0%nat) by (rewrite seq_length; exact H). rewrite seq_nth by exact H. reflexivity.
Qed.
Lemma renewed_first of A B id k c : (forall c, In c A -> of c = id) -> (forall c, In c B -> of c <> id) ->
  (In (k, c) (renewed of (A ++ B) id) <-> nth_error (A ++ B) k = Some c /\ of c = id).
Proof.
  intros HA HB. rewrite renewed_in, (conditions_first of A B id HA HB). split.
  - intros (O & j & E & N). rewrite nth_error_seq in N. destruct (Nat.ltb j (length A)); [|discriminate]. injection N as ->. auto.
  - intros (E & O). split; [exact O|]. exists k. split; [exact E|]. rewrite nth_error_seq. destruct (Nat.ltb_spec k (length A)) as [L|L]; [reflexivity|]. exfalso. rewrite nth_error_app2 in E by exact L. exact (HB c (nth_error_In _ _ E) O).
Qed.
Lemma conditions_nodup of conns id : NoDup (conditions of conns id).
Proof. apply NoDup_filter, seq_NoDup. Qed.
Lemma conditions_first_element of conns id k : In k (conditions of conns id) -> (forall j, In j (conditions of conns id) -> (k <= j)%nat) -> nth_error (conditions of conns id) 0 = Some k.
Proof.
  unfold conditions. generalize (fun k0 : nat => match nth_error conns k0 with Some c => of c =? id | None => false end). intros p. generalize (length conns). intros n. generalize 0%nat at 1 2 3. revert n.
  induction n as [|n IH]; intros s I M; [destruct I|]. cbn [seq filter] in *. destruct (p s) eqn:E.
  - cbn. f_equal. specialize (M s (or_introl eq_refl)). destruct I as [I|I]; [exact I|]. apply filter_In in I. destruct I as [I _]. apply in_seq in I. lia.
  - apply IH; assumption.
Qed.
Lemma never_renewed of conns id k c0 rest : conns = c0 :: rest -> of c0 <> id -> In k (conditions of conns id) -> (forall j, In j (conditions of conns id) -> (k <= j)%nat) ->
  forall c, ~ In (k, c) (renewed of conns id).
Proof.
  intros -> N I M c H. apply renewed_in in H. destruct H as (O & j & E & Q). pose proof (conditions_first_element _ _ _ _ I M) as F.
  assert (j = 0)%nat; [|subst j; cbn in E; congruence]. apply (proj1 (NoDup_nth_error (conditions of (c0 :: rest) id)) (conditions_nodup _ _ _)); [apply nth_error_Some; congruence|congruence].
Qed.
Lemma renewed_first_version_in conns k c : In (k, c) (renewed_first_version conns) <-> nth_error conns k = Some c.
Proof.
  unfold renewed_first_version. rewrite zip_in. split.
  - intros (j & A & B). rewrite nth_error_seq in A. destruct (Nat.ltb _ _); [|discriminate]. injection A as ->. exact B.
  - intros E. exists k. split; [|exact E]. rewrite nth_error_seq. destruct (Nat.ltb_spec k (length conns)) as [L|L]; [reflexivity|]. apply nth_error_None in L. congruence.
Qed.

(** ** Steps *)
Lemma min_dt_spec (l : list (option R)) : forall a r, fold_left min_dt l a = Some r -> (a = Some r \/ In (Some r) l) /\ (forall x, a = Some x \/ In (Some x) l -> r <= x).
Proof.
  induction l as [|o l IH]; intros a r E; cbn in E.
  - subst a. split; [left; reflexivity|]. intros x [H|[]]. injection H as ->. lra.
  - destruct (IH _ _ E) as [A B]. split.
    + destruct A as [A|A]; [|right; right; exact A]. destruct a as [y|], o as [z|]; cbn in A; try (right; left; assumption || congruence); try (left; assumption || congruence); try discriminate.
      injection A as A. unfold Rmin in A. destruct (Rle_dec y z); subst r; [left; reflexivity|right; left; reflexivity].
    + intros x Hx. destruct a as [y|], o as [z|]; cbn in B.
      * assert (Q : r <= Rmin y z) by (apply B; left; reflexivity). pose proof (Rmin_l y z). pose proof (Rmin_r y z). destruct Hx as [H1|[H1|H1]]; [injection H1 as <-; lra|injection H1 as <-; lra|apply B; right; exact H1].
      * destruct Hx as [H1|[H1|H1]]; [apply B; left; exact H1|discriminate|apply B; right; exact H1].
      * destruct Hx as [H1|[H1|H1]]; [discriminate|apply B; left; exact H1|apply B; right; exact H1].
      * destruct Hx as [H1|[H1|H1]]; [discriminate|discriminate|apply B; right; exact H1].
Qed.
Lemma min_dt_none (l : list (option R)) : forall a, fold_left min_dt l a = None -> a = None /\ forall x, ~ In (Some x) l.
Proof.
  induction l as [|o l IH]; intros a E; cbn in E; [subst; split; [reflexivity|intros x []]|]. destruct (IH _ E) as [A B]. destruct a as [y|], o as [z|]; cbn in A; try discriminate.
  split; [reflexivity|]. intros x [H|H]; [discriminate|exact (B x H)].
Qed.
Lemma stable_dt_spec x tubes plena r : ComputeStableDt x tubes plena = Some r -> (x = true /\ In (Some r) tubes \/ In (Some r) plena) /\ (forall y, x = true /\ In (Some y) tubes \/ In (Some y) plena -> r <= y).
Proof.
  unfold ComputeStableDt. intros E. destruct (min_dt_spec _ _ _ E) as [A B]. destruct x.
  - destruct (fold_left min_dt tubes None) as [t|] eqn:F.
    + destruct (min_dt_spec _ _ _ F) as [A2 B2]. split.
      * destruct A as [A|A]; [|right; exact A]. injection A as ->. destruct A2 as [A2|A2]; [discriminate|]. left. auto.
      * intros y [[_ H]|H]; [|apply B; right; exact H]. assert (r <= t) by (apply B; left; reflexivity). assert (t <= y) by (apply B2; right; exact H). lra.
    + destruct (min_dt_none _ _ F) as [_ N]. split; [destruct A as [A|A]; [discriminate|right; exact A]|]. intros y [[_ H]|H]; [destruct (N y H)|apply B; right; exact H].
  - split; [destruct A as [A|A]; [discriminate|right; exact A]|]. intros y [[H _]|H]; [discriminate|apply B; right; exact H].
Qed.
