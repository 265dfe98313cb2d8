(** Resampling. *)
From Coq Require Import List Reals ZArith Bool Arith Lia Lra Psatz.
From Verif Require Import MultiBlockModel MultiBlockSpec.
Import ListNotations.
Local Open Scope R_scope.

(** ** What lies left of a position *)
Definition clamp (h x : R) : R := Rmax 0 (Rmin h x).
Fixpoint left_of (h : R) (k : nat) (l : list R) (x : R) : R :=
  match l with [] => 0 | v :: l' => clamp h (x - INR k * h) * v + left_of h (S k) l' x end.

Lemma overlap_clamp h k a b : 0 < h -> a <= b -> overlap a b (INR k * h) (INR (S k) * h) = clamp h (b - INR k * h) - clamp h (a - INR k * h).
Proof.
  intros H Hab. unfold overlap, clamp. rewrite S_INR. replace ((INR k + 1) * h) with (INR k * h + h) by ring. set (c := INR k * h). clearbody c.
  unfold Rmax, Rmin. repeat (destruct (Rle_dec _ _)); lra.
Qed.
Lemma content_left h l a b : 0 < h -> a <= b -> forall k, content h k l a b = left_of h k l b - left_of h k l a.
Proof.
  intros H Hab. induction l as [|v l IH]; intros k; [cbn; ring|]. cbn [content left_of]. rewrite IH, overlap_clamp by assumption. ring.
Qed.

(** Cells left of k0 + length lie fully left of a position in cell i. *)
Lemma left_of_below h l x : 0 < h -> forall k, x <= INR k * h -> left_of h k l x = 0.
Proof.
  intros H. induction l as [|v l IH]; intros k Hx; [reflexivity|]. cbn [left_of]. rewrite IH by (rewrite S_INR; nra).
  unfold clamp. unfold Rmax, Rmin. repeat (destruct (Rle_dec _ _)); try lra.
  replace (x - INR k * h) with 0 by lra. ring.
Qed.
Lemma left_of_app h l m x : forall k, left_of h k (l ++ m) x = left_of h k l x + left_of h (k + length l) m x.
Proof.
  induction l as [|v l IH]; intros k; cbn [app left_of length]; [rewrite Nat.add_0_r; ring|]. rewrite IH. replace (k + S (length l))%nat with (S k + length l)%nat by lia. ring.
Qed.
Fixpoint total (l : list R) : R := match l with [] => 0 | v :: l' => v + total l' end.
Lemma left_of_full h l x : 0 < h -> forall k, INR (k + length l) * h <= x -> left_of h k l x = h * total l.
Proof.
  intros H. induction l as [|v l IH]; intros k Hx; cbn [left_of total]; [ring|]. cbn [length] in Hx.
  rewrite IH by (replace (S k + length l)%nat with (k + S (length l))%nat by lia; exact Hx).
  assert (h <= x - INR k * h). { rewrite plus_INR, S_INR in Hx. pose proof (pos_INR (length l)). nra. }
  unfold clamp, Rmax, Rmin. repeat (destruct (Rle_dec _ _)); try nra.
Qed.
(** The content left of position i h + r *)
Lemma left_at h l i r v : 0 < h -> 0 <= r <= h -> nth_error l i = Some v -> left_of h 0 l (INR i * h + r) = h * total (firstn i l) + r * v.
Proof.
  intros H Hr E. rewrite <- (firstn_skipn i l) at 1. assert (L : (i < length l)%nat) by (apply nth_error_Some; congruence).
  assert (F : length (firstn i l) = i) by (apply firstn_length_le; lia).
  rewrite left_of_app, F. rewrite (left_of_full h (firstn i l)) by (try exact H; rewrite ?F; cbn; lra). f_equal.
  assert (Sk : exists t, skipn i l = v :: t).
  { clear - E. revert l E. induction i as [|i IH]; intros [|a l] E; cbn in *; try discriminate; [injection E as ->; eauto|apply IH; exact E]. }
  destruct Sk as [t ->]. cbn [left_of Nat.add]. rewrite left_of_below by (try exact H; rewrite S_INR; nra).
  replace (INR i * h + r - INR i * h) with r by ring. replace (clamp h r) with r; [ring|]. unfold clamp, Rmax, Rmin. repeat (destruct (Rle_dec _ _)); lra.
Qed.
Lemma left_at_start h l i : 0 < h -> (i <= length l)%nat -> left_of h 0 l (INR i * h) = h * total (firstn i l).
Proof.
  intros H L. rewrite <- (firstn_skipn i l) at 1. assert (F : length (firstn i l) = i) by (apply firstn_length_le; lia).
  rewrite left_of_app, F. rewrite (left_of_full h (firstn i l)) by (try exact H; rewrite ?F; cbn; lra). rewrite left_of_below by (cbn; lra). ring.
Qed.
Lemma total_firstn l i v : nth_error l i = Some v -> total (firstn (S i) l) = total (firstn i l) + v.
Proof.
  revert l. induction i as [|i IH]; intros [|a l] E; try discriminate; [injection E as ->; cbn; ring|]. cbn [nth_error] in E. cbn [firstn total].
  change (match l with [] => [] | a0 :: l0 => a0 :: firstn i l0 end) with (firstn (S i) l). rewrite (IH l E). ring.
Qed.

(** ** Coarsening *)
Section Greater.
Variables (src : list R) (h D : R).
Hypothesis Hh : 0 < h.
Hypothesis HD : h < D.

(** Invariant of the inner loop for the cell which starts at x: it has collected the content between x and i h. *)
Definition inner (x acc sum : R) (i : nat) : Prop :=
  x + sum = INR i * h /\ sum <= D /\ D * acc = left_of h 0 src (INR i * h) - left_of h 0 src x.
Lemma full_cells_spec x fuel acc s i r : inner x acc s i -> (length src - i < fuel)%nat -> full_cells fuel src h D acc s i = r ->
  (forall a s' i', r = Some (a, s', i') -> inner x a s' i' /\ D < s' + h) /\
  (r = None -> exists m, (length src < m)%nat /\ INR m * h <= x + D).
Proof.
  revert acc s i. induction fuel as [|fuel IH]; intros acc s i I F E; [lia|]. destruct I as (I1 & I2 & I3). cbn [full_cells] in E. destruct (Rle_dec (s + h) D) as [L|L].
  - destruct (nth_error src i) as [v|] eqn:N.
    + apply (IH (acc + h / D * v) (s + h) (S i)); [|assert (i < length src)%nat by (apply nth_error_Some; congruence); lia|exact E].
      repeat split; [rewrite S_INR; lra|exact L|]. rewrite left_at_start in I3 |- * by (try exact Hh; assert (i < length src)%nat by (apply nth_error_Some; congruence); lia).
      rewrite (total_firstn _ _ _ N). replace (D * (acc + h / D * v)) with (D * acc + h * v) by (field; lra). rewrite I3. ring.
    + apply nth_error_None in N. split; intros; [congruence|]. exists (S i). split; [lia|]. rewrite S_INR. lra.
  - split; intros; [|congruence]. subst r. injection H as -> -> ->. split; [repeat split; assumption|lra].
Qed.

(** One cell which starts at x = i h + r *)
Lemma greater_cell_spec x i r : 0 <= r < h -> x = INR i * h + r -> (i <= length src)%nat -> (0 < r -> (i < length src)%nat) ->
  (forall v i' r', greater_cell src h D i r = Some (v, i', r') ->
     D * v = left_of h 0 src (x + D) - left_of h 0 src x /\ 0 <= r' < h /\ x + D = INR i' * h + r' /\ (i' < length src)%nat) /\
  (greater_cell src h D i r = None -> INR (length src) * h <= x + D).
Proof.
  intros Hr Hx Li Lr. unfold greater_cell. cbv zeta.
  set (start := if Rlt_dec 0 r then _ else _).
  assert (S0 : exists acc s j, start = Some (acc, s, j) /\ inner x acc s j /\ (i <= j)%nat).
  { unfold start. destruct (Rlt_dec 0 r) as [P|P].
    - specialize (Lr P). destruct (nth_error src i) as [v|] eqn:N; [|apply nth_error_None in N; lia]. exists ((h - r) / D * v), (h - r), (S i). split; [reflexivity|]. split; [|lia].
      repeat split; [rewrite S_INR; lra|lra|]. rewrite left_at_start by (try exact Hh; lia). rewrite (total_firstn _ _ _ N), Hx, (left_at h src i r v) by (try assumption; lra). field. lra.
    - exists 0, 0, i. split; [reflexivity|]. split; [|lia]. assert (r = 0) by lra. subst. rewrite Rplus_0_r. repeat split; [lra|lra|ring]. }
  destruct S0 as (acc & s & j & E0 & I & Lj). rewrite E0. clear E0 start.
  destruct (full_cells (S (length src)) src h D acc s j) as [[[a' s'] j']|] eqn:E.
  - destruct (full_cells_spec x (S (length src)) acc s j _ I ltac:(lia) E) as [A _]. destruct (A _ _ _ eq_refl) as ((J1 & J2 & J3) & J4).
    destruct (nth_error src j') as [v|] eqn:N.
    + split; [|discriminate]. intros w i2 r2 Q. injection Q as <- <- <-. assert (j' < length src)%nat by (apply nth_error_Some; congruence).
      assert (X : x + D = INR j' * h + (D - s')) by lra. repeat split; try lra; [|assumption].
      rewrite X. rewrite (left_at h src j' (D - s') v) by (try assumption; lra). rewrite left_at_start in J3 by (try exact Hh; lia).
      replace (D * (a' + (D - s') / D * v)) with (D * a' + (D - s') * v) by (field; lra). rewrite J3. ring.
    + split; [discriminate|]. intros _. apply nth_error_None in N. apply le_INR in N. nra.
  - split; [discriminate|]. intros _. destruct (full_cells_spec x (S (length src)) acc s j _ I ltac:(lia) E) as [_ B]. destruct (B eq_refl) as (m & M1 & M2).
    apply lt_INR in M1. nra.
Qed.

Lemma greater_cells_spec n : forall x i r, 0 <= r < h -> x = INR i * h + r -> (i <= length src)%nat -> (0 < r -> (i < length src)%nat) ->
  (x + INR n * D < INR (length src) * h ->
   exists l, greater_cells n src h D i r = Some l /\ length l = n /\
     forall m, (m < n)%nat -> nth_error l m = Some ((left_of h 0 src (x + INR (S m) * D) - left_of h 0 src (x + INR m * D)) / D)).
Proof.
  induction n as [|n IH]; intros x i r Hr Hx Li Lr C.
  - exists []. repeat split. intros m Hm. lia.
  - rewrite S_INR in C. pose proof (pos_INR n) as Pn. destruct (greater_cell_spec x i r Hr Hx Li Lr) as [A B]. cbn [greater_cells]. destruct (greater_cell src h D i r) as [[[v i'] r']|]; [|exfalso; specialize (B eq_refl); nra].
    destruct (A _ _ _ eq_refl) as (V & R1 & X1 & L1). destruct (IH (x + D) i' r' R1 X1 ltac:(lia) ltac:(lia) ltac:(nra)) as (l & E & Ll & H). rewrite E.
    exists (v :: l). split; [reflexivity|]. split; [cbn; lia|]. intros [|m] Hm; cbn [nth_error].
    + f_equal. replace (INR 1) with 1 by reflexivity. cbn [INR]. rewrite Rmult_1_l, Rmult_0_l, Rplus_0_r. rewrite <- V. field. lra.
    + rewrite H by lia. f_equal. rewrite !S_INR. replace (x + D + (INR m + 1) * D) with (x + (INR m + 1 + 1) * D) by ring. replace (x + D + INR m * D) with (x + (INR m + 1) * D) by ring. reflexivity.
Qed.

(** If the cells of [src] end where the cells of [dest] end, the last cell reads beyond the end. *)
Lemma greater_cells_overrun n : forall x i r, 0 <= r < h -> x = INR i * h + r -> (i <= length src)%nat -> (0 < r -> (i < length src)%nat) ->
  (0 < n)%nat -> INR (length src) * h <= x + INR n * D -> greater_cells n src h D i r = None.
Proof.
  induction n as [|n IH]; intros x i r Hr Hx Li Lr Hn C; [lia|]. destruct (greater_cell_spec x i r Hr Hx Li Lr) as [A _]. cbn [greater_cells].
  destruct (greater_cell src h D i r) as [[[v i'] r']|]; [|reflexivity]. destruct (A _ _ _ eq_refl) as (_ & R1 & X1 & L1). destruct n as [|n].
  - exfalso. cbn in C. rewrite Rmult_1_l, X1 in C. apply le_INR in L1. rewrite S_INR in L1. nra.
  - rewrite (IH (x + D) i' r') by (try assumption; try lia; rewrite S_INR in C; lra). reflexivity.
Qed.
End Greater.

Lemma mean_left h l a b : 0 < h -> a < b -> mean h l a b = (left_of h 0 l b - left_of h 0 l a) / (b - a).
Proof. intros H Hab. unfold mean. rewrite content_left by lra. reflexivity. Qed.

Lemma greater_exact n D src h : 0 < h -> h < D -> INR n * D < INR (length src) * h ->
  exists l, InterpolateStates_Greater n D src h = Some l /\ length l = n /\
    forall m, (m < n)%nat -> nth_error l m = Some (mean h src (INR m * D) (INR (S m) * D)).
Proof.
  intros H HD C. destruct (greater_cells_spec src h D H HD n 0 0 0 ltac:(lra) ltac:(cbn; lra) ltac:(lia) ltac:(lra) ltac:(lra)) as (l & E & L & V).
  exists l. split; [exact E|]. split; [exact L|]. intros m Hm. rewrite V by exact Hm. rewrite !Rplus_0_l. f_equal. rewrite mean_left by (try exact H; rewrite S_INR; nra).
  f_equal. rewrite S_INR. ring.
Qed.
Lemma greater_overrun n D src h : 0 < h -> h < D -> (0 < n)%nat -> INR (length src) * h <= INR n * D -> InterpolateStates_Greater n D src h = None.
Proof. intros H HD Hn C. apply (greater_cells_overrun src h D H HD n 0); try assumption; try lra; try lia; cbn; lra. Qed.

(** ** Refining *)
Lemma trunc_spec x : 0 <= x -> INR (trunc x) <= x < INR (trunc x) + 1.
Proof.
  intros H. unfold trunc. destruct (base_Int_part x) as [A B]. assert (0 <= Int_part x)%Z.
  { assert (- 1 < Int_part x)%Z; [|lia]. apply lt_IZR. cbn. lra. }
  rewrite INR_IZR_INZ, Z2Nat.id by assumption. lra.
Qed.
Lemma fmod_spec x y : 0 <= x -> 0 < y -> fmod x y = x - INR (trunc (x / y)) * y.
Proof.
  intros Hx Hy. unfold fmod, trunc. rewrite INR_IZR_INZ, Z2Nat.id; [reflexivity|]. destruct (base_Int_part (x / y)) as [A B].
  assert (0 <= x / y) by (apply Rmult_le_pos; [exact Hx|left; apply Rinv_0_lt_compat, Hy]).
  assert (- 1 < Int_part (x / y))%Z; [|lia]. apply lt_IZR. cbn. lra.
Qed.
Lemma trunc_cell y h : 0 <= y -> 0 < h -> INR (trunc (y / h)) * h <= y < INR (S (trunc (y / h))) * h.
Proof.
  intros Hy Hh. assert (0 <= y / h) by (apply Rmult_le_pos; [exact Hy|left; apply Rinv_0_lt_compat, Hh]). destruct (trunc_spec _ H) as [A B]. rewrite S_INR.
  assert (E : y = y / h * h) by (field; lra). set (t := INR (trunc (y / h))) in *. set (z := y / h) in *. clearbody t z. subst y. nra.
Qed.
Lemma nth_some {A} (l : list A) i : (i < length l)%nat -> exists v, nth_error l i = Some v.
Proof. intros H. destruct (nth_error l i) eqn:E; [eauto|]. apply nth_error_None in E. lia. Qed.
Lemma index_lt i n h y : 0 < h -> INR i * h <= y -> y < INR n * h -> (i < n)%nat.
Proof. intros H A B. apply INR_lt. nra. Qed.

Lemma less_cell_spec D src h i : 0 < D -> D < h -> INR (S i) * D <= INR (length src) * h ->
  less_cell D src h i = Some (mean h src (INR i * D) (INR (S i) * D)).
Proof.
  intros HD Hh C. unfold less_cell. cbv zeta. rewrite (Rmult_comm D (INR i)), (Rmult_comm D (INR (S i))).
  assert (X : INR (S i) * D = INR i * D + D) by (rewrite S_INR; ring). pose proof (pos_INR i) as Pi.
  assert (H0 : 0 <= INR i * D) by nra. set (y := INR i * D) in *. rewrite X in *. clearbody y. clear X Pi.
  rewrite mean_left by lra. replace (y + D - y) with D by ring.
  destruct (trunc_cell y h H0 ltac:(lra)) as [A0 B0]. destruct (trunc_cell (y + D) h ltac:(lra) ltac:(lra)) as [A1 B1].
  rewrite fmod_spec by lra.
  set (j0 := trunc (y / h)) in *. set (j1 := trunc ((y + D) / h)) in *. clearbody j0 j1.
  assert (L0 : (j0 < length src)%nat) by (apply (index_lt j0 _ h y); lra). destruct (nth_some src j0 L0) as [v0 E0].
  assert (J : (j0 <= j1 <= S j0)%nat).
  { split.
    - assert (j0 < S j1)%nat; [|lia]. apply (index_lt j0 _ h y); lra.
    - assert (j1 < S (S j0))%nat; [|lia]. apply (index_lt j1 _ h (y + D)); try lra. rewrite (S_INR (S j0)). lra. }
  rewrite S_INR in B0, B1. assert (PL : left_of h 0 src y = h * total (firstn j0 src) + (y - INR j0 * h) * v0).
  { replace y with (INR j0 * h + (y - INR j0 * h)) at 1 by ring. apply left_at; [lra|lra|exact E0]. }
  assert (PE : y + D <= (INR j0 + 1) * h -> left_of h 0 src (y + D) = h * total (firstn j0 src) + (y + D - INR j0 * h) * v0).
  { intros Q. replace (y + D) with (INR j0 * h + (y + D - INR j0 * h)) at 1 by ring. apply left_at; [lra|lra|exact E0]. }
  destruct (Nat.eqb_spec j0 j1) as [Q|Q].
  - subst j1. rewrite E0, PL, PE by lra. f_equal. field. lra.
  - assert (j1 = S j0) by lia. subst j1. rewrite S_INR in *. clear Q J.
    destruct (Rlt_dec 0 (y + D - (INR j0 + 1) * h)) as [W|W]; cbn [andb].
    + destruct (Nat.ltb_spec (S j0) (length src)) as [L1|L1].
      * destruct (nth_some src (S j0) L1) as [v1 E1]. rewrite E0, E1, PL.
        replace (left_of h 0 src (y + D)) with (h * total (firstn (S j0) src) + (y + D - INR (S j0) * h) * v1).
        { rewrite (total_firstn _ _ _ E0), S_INR. f_equal. field. lra. }
        { symmetry. replace (y + D) with (INR (S j0) * h + (y + D - INR (S j0) * h)) at 1 by ring. rewrite S_INR. rewrite <- S_INR. apply left_at; [lra|rewrite S_INR; lra|exact E1]. }
      * exfalso. apply le_INR in L1. rewrite S_INR in L1. nra.
    + rewrite E0, PL, PE by lra. f_equal. field. lra.
Qed.
Lemma all_some_map {A B} (f : A -> option B) (g : A -> B) l : (forall x, In x l -> f x = Some (g x)) -> all_some (map f l) = Some (map g l).
Proof. induction l as [|a l IH]; intros H; [reflexivity|]. cbn. rewrite H by (left; reflexivity). rewrite IH by (intros; apply H; right; assumption). reflexivity. Qed.
Lemma less_exact n D src h : 0 < D -> D < h -> INR n * D <= INR (length src) * h ->
  exists l, InterpolateStates_Less n D src h = Some l /\ length l = n /\
    forall m, (m < n)%nat -> nth_error l m = Some (mean h src (INR m * D) (INR (S m) * D)).
Proof.
  intros HD Hh C. exists (map (fun m => mean h src (INR m * D) (INR (S m) * D)) (seq 0 n)). split; [|split].
  - apply all_some_map. intros i Hi. apply in_seq in Hi. apply less_cell_spec; try assumption. assert (INR (S i) <= INR n) by (apply le_INR; lia). nra.
  - rewrite map_length, seq_length. reflexivity.
  - intros m Hm. rewrite nth_error_map. replace (nth_error (seq 0 n) m) with (Some m); [reflexivity|]. symmetry. rewrite (nth_error_nth' _ 0%nat) by (rewrite seq_length; exact Hm). rewrite seq_nth by exact Hm. reflexivity.
Qed.

(** ** Equal sizes *)
Lemma equal_exact D src m : 0 < D -> (m < length src)%nat -> nth_error src m = Some (mean D src (INR m * D) (INR (S m) * D)).
Proof.
  intros HD Hm. destruct (nth_some src m Hm) as [v E]. rewrite mean_left by (try exact HD; rewrite S_INR; nra). rewrite E. f_equal.
  rewrite left_at_start by (try exact HD; lia). rewrite left_at_start by (try exact HD; lia). rewrite (total_firstn _ _ _ E), S_INR. field. lra.
Qed.

(** ** Both sides *)
Lemma nth_error_rev {A} (l : list A) m : (m < length l)%nat -> nth_error (rev l) m = nth_error l (length l - 1 - m).
Proof.
  intros H. destruct (nth_some l (length l - 1 - m) ltac:(lia)) as [v E]. rewrite E. rewrite (nth_error_nth' _ v) by (rewrite rev_length; exact H). f_equal. rewrite rev_nth by exact H.
  replace (length l - S m)%nat with (length l - 1 - m)%nat by lia. apply nth_error_nth. exact E.
Qed.
Definition fits (n : nat) (D : R) (len : nat) (h : R) : Prop := (h < D /\ INR n * D < INR len * h) \/ (D < h /\ INR n * D <= INR len * h) \/ (D = h /\ n = len).
Lemma interpolate_exact n D src h side : 0 < D -> 0 < h -> fits n D (length src) h ->
  exists l, InterpolateStates n D src h side = Some l /\ length l = n /\
    forall m, (m < n)%nat ->
      (side = 1%nat -> nth_error l (n - 1 - m) = Some (mean h (rev src) (INR m * D) (INR (S m) * D))) /\
      (side <> 1%nat -> nth_error l m = Some (mean h src (INR m * D) (INR (S m) * D))).
Proof.
  intros HD Hh F. unfold InterpolateStates.
  assert (RV : forall f : list R -> option (list R), (forall s, length s = length src -> exists l, f s = Some l /\ length l = n /\ forall m, (m < n)%nat -> nth_error l m = Some (mean h s (INR m * D) (INR (S m) * D))) ->
    exists l, (if Nat.eqb side 1 then option_map (@rev R) (f (rev src)) else f src) = Some l /\ length l = n /\
    forall m, (m < n)%nat -> (side = 1%nat -> nth_error l (n - 1 - m) = Some (mean h (rev src) (INR m * D) (INR (S m) * D))) /\ (side <> 1%nat -> nth_error l m = Some (mean h src (INR m * D) (INR (S m) * D)))).
  { intros f H. destruct (Nat.eqb_spec side 1) as [->|N].
    - destruct (H (rev src) ltac:(apply rev_length)) as (l & E & L & V). rewrite E. exists (rev l). split; [reflexivity|]. split; [rewrite rev_length; exact L|]. intros m Hm. split; [intros _|congruence].
      rewrite nth_error_rev by lia. rewrite L. replace (n - 1 - (n - 1 - m))%nat with m by lia. apply V. exact Hm.
    - destruct (H src eq_refl) as (l & E & L & V). exists l. split; [exact E|]. split; [exact L|]. intros m Hm. split; [congruence|]. intros _. apply V. exact Hm. }
  destruct (Rlt_dec h D) as [G|G]; [|destruct (Rlt_dec D h) as [Ls|Ls]].
  - apply (RV (fun s => InterpolateStates_Greater n D s h)). intros s Ls. destruct F as [[_ F]|[[F _]|[F _]]]; try lra. apply greater_exact; try assumption. rewrite Ls. exact F.
  - apply (RV (fun s => InterpolateStates_Less n D s h)). intros s Es. destruct F as [[F _]|[[_ F]|[F _]]]; try lra. apply less_exact; try assumption. rewrite Es. exact F.
  - assert (D = h) by lra. subst h. destruct F as [[F _]|[[F _]|[_ F]]]; try lra. subst n. rewrite Nat.eqb_refl. exists src. split; [reflexivity|]. split; [reflexivity|].
    intros m Hm. split; [intros _|intros _; apply equal_exact; assumption].
    rewrite <- (rev_involutive src) at 1. rewrite nth_error_rev by (rewrite rev_length; lia). rewrite rev_length. replace (length src - 1 - (length src - 1 - m))%nat with m by lia.
    apply equal_exact; [exact HD|rewrite rev_length; exact Hm].
Qed.
