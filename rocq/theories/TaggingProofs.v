(** Lemmas about the tag buffer. *)
From Coq Require Import List ZArith Lia Bool FinFun.
From Verif Require Import ArrayModel ArraySpec ArrayProofs BoxProofs TaggingModel TaggingSpec.
Import ListNotations.
Local Open Scope Z_scope.

Lemma set_tag_same d i v : set_tag d i v i = v.
Proof. unfold set_tag. destruct (list_eq_dec Z.eq_dec i i); congruence. Qed.

Lemma set_tag_other d i v k : k <> i -> set_tag d i v k = d k.
Proof. unfold set_tag. destruct (list_eq_dec Z.eq_dec k i); congruence. Qed.

Lemma index_in_dec (k : index) (l : list index) : {In k l} + {~ In k l}.
Proof. apply in_dec. apply list_eq_dec, Z.eq_dec. Qed.

Section Raise.
  Variable F : Z -> Z.
  Variable src : Z -> bool.
  Hypothesis F_valid : forall v, 0 <= v <= 127 -> 0 <= F v <= 127.
  Hypothesis F_idem : forall v, 0 <= v <= 127 -> F (F v) = F v.
  Hypothesis F_src : forall v, 0 <= v <= 127 -> src (F v) = src v.

  Definition raise_all (l : list index) (d : tags) : tags := fold_left (fun d k => set_tag d k (F (d k))) l d.

  Lemma raise_valid d k : valid_tags d -> valid_tags (set_tag d k (F (d k))).
  Proof.
    intros H i. unfold set_tag. destruct (list_eq_dec Z.eq_dec i k); [apply F_valid, H|apply H].
  Qed.

  Lemma raise_all_valid l : forall d, valid_tags d -> valid_tags (raise_all l d).
  Proof.
    induction l as [|k l IH]; intros d H; [assumption|]. cbn [raise_all fold_left]. apply IH, raise_valid, H.
  Qed.

  Lemma raise_all_spec l : forall d k, valid_tags d ->
    (In k l -> raise_all l d k = F (d k)) /\ (~ In k l -> raise_all l d k = d k).
  Proof.
    induction l as [|x l IH]; intros d k H.
    - split; [intros []|reflexivity].
    - change (raise_all (x :: l) d) with (raise_all l (set_tag d x (F (d x)))).
      destruct (IH (set_tag d x (F (d x))) k (raise_valid d x H)) as [A B].
      destruct (list_eq_dec Z.eq_dec k x) as [-> | N].
      + rewrite set_tag_same in A, B. split; [|intros C; destruct C; left; reflexivity].
        intros _. destruct (index_in_dec x l) as [I|I]; [rewrite (A I); apply F_idem, H|apply B, I].
      + rewrite set_tag_other in A, B by assumption. split.
        * intros [-> | I]; [congruence|apply A, I].
        * intros I. apply B. intros J. apply I. right. assumption.
  Qed.

  Variable nb : index -> list index.

  Definition spread (cs : list index) (d : tags) : tags :=
    fold_left (fun d c => if src (d c) then raise_all (nb c) d else d) cs d.

  Lemma spread_spec cs : forall d k, valid_tags d ->
    valid_tags (spread cs d) /\
    ((exists c, In c cs /\ src (d c) = true /\ In k (nb c)) -> spread cs d k = F (d k)) /\
    ((forall c, In c cs -> src (d c) = true -> ~ In k (nb c)) -> spread cs d k = d k).
  Proof.
    induction cs as [|c cs IH]; intros d k H.
    - split; [assumption|]. split; [intros (c & [] & _)|reflexivity].
    - change (spread (c :: cs) d) with (spread cs (if src (d c) then raise_all (nb c) d else d)).
      set (d1 := if src (d c) then raise_all (nb c) d else d).
      assert (V1 : valid_tags d1) by (unfold d1; destruct (src (d c)); [apply raise_all_valid|]; assumption).
      assert (S1 : forall x, src (d1 x) = src (d x)).
      { intros x. unfold d1. destruct (src (d c)); [|reflexivity].
        destruct (raise_all_spec (nb c) d x H) as [A B].
        destruct (index_in_dec x (nb c)) as [I|I]; [rewrite (A I); apply F_src, H|rewrite (B I); reflexivity]. }
      assert (D1 : d1 k = if andb (src (d c)) (if index_in_dec k (nb c) then true else false) then F (d k) else d k).
      { unfold d1. destruct (src (d c)); [|reflexivity]. cbn [andb].
        destruct (raise_all_spec (nb c) d k H) as [A B]. destruct (index_in_dec k (nb c)); auto. }
      destruct (IH d1 k V1) as (V & A & B). clearbody d1. split; [assumption|]. split.
      + intros (x & Hx & Sx & Nx).
        assert (DD : d1 k = F (d k) \/ d1 k = d k) by (rewrite D1; destruct (_ && _); auto).
        destruct (existsb (fun y => andb (src (d y)) (if index_in_dec k (nb y) then true else false)) cs) eqn:E.
        * apply existsb_exists in E as (y & Hy & E). apply andb_true_iff in E as [E1 E2].
          rewrite A.
          -- destruct DD as [-> | ->]; [apply F_idem, H|reflexivity].
          -- exists y. split; [assumption|]. split; [rewrite S1; assumption|].
             destruct (index_in_dec k (nb y)); [assumption|discriminate].
        * assert (Q : forall y, In y cs -> src (d y) = true -> ~ In k (nb y)).
          { intros y Hy Sy Ny. rewrite <- not_true_iff_false in E. apply E. apply existsb_exists. exists y.
            split; [assumption|]. rewrite Sy. destruct (index_in_dec k (nb y)); [reflexivity|contradiction]. }
          rewrite B by (intros y Hy Sy; rewrite S1 in Sy; apply Q; assumption).
          destruct Hx as [-> | Hx]; [|exfalso; exact (Q x Hx Sx Nx)].
          rewrite D1, Sx. destruct (index_in_dec k (nb x)); [reflexivity|contradiction].
      + intros Q. rewrite B.
        * rewrite D1. destruct (src (d c)) eqn:E; [|reflexivity].
          destruct (index_in_dec k (nb c)) as [I|I]; [|reflexivity].
          exfalso. exact (Q c (or_introl eq_refl) E I).
        * intros y Hy Sy. rewrite S1 in Sy. apply Q; [right; assumption|assumption].
  Qed.
End Raise.

Lemma char_of_small v : -128 <= v <= 127 -> char_of v = v.
Proof. intros H. unfold char_of. rewrite Z.mod_small by lia. lia. Qed.

Definition F3 (v : Z) : Z := Z.max v (char_of (3 - v)).
Definition F2 (v : Z) : Z := Z.max v (char_of (2 - v)).

Lemma F3_eq v : 0 <= v <= 127 -> F3 v = Z.max v (3 - v).
Proof. intros H. unfold F3. rewrite char_of_small by lia. reflexivity. Qed.
Lemma F2_eq v : 0 <= v <= 127 -> F2 v = Z.max v (2 - v).
Proof. intros H. unfold F2. rewrite char_of_small by lia. reflexivity. Qed.

Definition src12 (v : Z) : bool := (v =? 1) || (v =? 2).

Lemma fold_left_ext {A B} (f g : A -> B -> A) l : (forall b, In b l -> forall a, f a b = g a b) ->
  forall a, fold_left f l a = fold_left g l a.
Proof.
  induction l as [|x l IH]; intros H a; [reflexivity|]. cbn [fold_left]. rewrite (H x) by (left; reflexivity).
  apply IH. intros b Hb. apply H. right. assumption.
Qed.

(** ** 2d *)

Definition nb2 (w nx ny : Z) (c : index) : list index :=
  loop_indices [Z.max (nthZ c 0 - w) 0; Z.max (nthZ c 1 - w) 0] [Z.min (nthZ c 0 + w) nx; Z.min (nthZ c 1 + w) ny].

Lemma TagBuffer2_spread w nx ny d :
  TagBuffer2 w nx ny d = spread F3 src12 (nb2 w nx ny) (loop_indices [0; 0] [nx; ny]) d.
Proof. reflexivity. Qed.

Lemma inside2 a b c d k : inside [a; b] [c; d] k <-> exists x y, k = [x; y] /\ a <= x < c /\ b <= y < d.
Proof.
  split.
  - intros (H1 & H2 & H). destruct k as [|x [|y [|]]]; simpl in *; try lia.
    exists x, y. split; [reflexivity|]. split; [apply (H O); lia|apply (H 1%nat); lia].
  - intros (x & y & -> & Hx & Hy). split; [reflexivity|]. split; [reflexivity|].
    intros [|[|r]] Hr; simpl in *; lia.
Qed.

Lemma within_half_open2 w i j k l : within_half_open w [i; j] [k; l] <-> i - w <= k < i + w /\ j - w <= l < j + w.
Proof.
  unfold within_half_open. cbn [length]. split.
  - intros [_ H]. split; [apply (H O); lia|apply (H 1%nat); lia].
  - intros [H1 H2]. split; [reflexivity|]. intros [|[|r]] Hr; simpl; lia.
Qed.

Lemma nb2_in w nx ny i j k : In k (nb2 w nx ny [i; j]) <->
  inside [0; 0] [nx; ny] k /\ within_half_open w [i; j] k.
Proof.
  unfold nb2. cbn [nthZ nth]. rewrite loop_indices_in by reflexivity. rewrite !inside2. split.
  - intros (x & y & -> & Hx & Hy). cbn [nthZ nth] in *. unfold nthZ in *. cbn [nth] in *. split.
    + exists x, y. split; [reflexivity|]. lia.
    + apply within_half_open2. lia.
  - intros ((x & y & -> & Hx & Hy) & H). apply within_half_open2 in H. unfold nthZ; cbn [nth].
    exists x, y. split; [reflexivity|]. lia.
Qed.

Lemma buffer2 w nx ny d : valid_tags d -> forall k,
  ((exists c, inside [0; 0] [nx; ny] c /\ (d c = 1 \/ d c = 2) /\ within_half_open w c k /\ inside [0; 0] [nx; ny] k) ->
   TagBuffer2 w nx ny d k = Z.max (d k) (3 - d k)) /\
  ((forall c, inside [0; 0] [nx; ny] c -> (d c = 1 \/ d c = 2) -> inside [0; 0] [nx; ny] k -> ~ within_half_open w c k) ->
   TagBuffer2 w nx ny d k = d k).
Proof.
  intros V k. rewrite TagBuffer2_spread.
  destruct (spread_spec F3 src12) with (nb := nb2 w nx ny) (cs := loop_indices [0; 0] [nx; ny]) (d := d) (k := k)
    as (_ & A & B); auto.
  { intros v Hv. rewrite F3_eq by lia. lia. }
  { intros v Hv. rewrite !F3_eq; rewrite ?F3_eq; lia. }
  { intros v Hv. rewrite F3_eq by lia. unfold src12.
    destruct (Z.eq_dec v 0) as [-> |]; [reflexivity|]. destruct (Z.eq_dec v 1) as [-> |]; [reflexivity|].
    rewrite Z.max_l by lia. reflexivity. }
  assert (SRC : forall v, src12 v = true <-> (v = 1 \/ v = 2)).
  { intros v. unfold src12. rewrite orb_true_iff, !Z.eqb_eq. reflexivity. }
  split.
  - intros (c & Hc & Sc & Hw & Hk). rewrite A; [apply F3_eq, V|].
    exists c. split; [apply loop_indices_in; [reflexivity|assumption]|]. split; [apply SRC, Sc|].
    pose proof Hc as Hc'. apply inside2 in Hc' as (i & j & -> & _). apply nb2_in. auto.
  - intros Q. apply B. intros c Hc Sc Hn. apply loop_indices_in in Hc; [|reflexivity]. apply SRC in Sc.
    pose proof Hc as Hc'. apply inside2 in Hc' as (i & j & -> & _). apply nb2_in in Hn as [N1 N2].
    exact (Q _ Hc Sc N1 N2).
Qed.

(** ** 3d *)

Definition nb3 (w : Z) (c : index) : list index :=
  loop_indices [nthZ c 0 - w; nthZ c 1 - w; nthZ c 2 - w] [nthZ c 0 + w; nthZ c 1 + w; nthZ c 2 + w].

Definition centres3 (w : Z) (b : IndexBox) : IndexBox := Shrink (Shrink (Shrink b 0 (w, w)) 1 (w, w)) 2 (w, w).

Lemma TagBuffer3_spread w b d :
  TagBuffer3 w b d = spread F2 (fun _ => true) (nb3 w) (loop_indices (lower (centres3 w b)) (upper (centres3 w b))) d.
Proof. reflexivity. Qed.

Lemma inside3 a b c a' b' c' k : inside [a; b; c] [a'; b'; c'] k <->
  exists x y z, k = [x; y; z] /\ a <= x < a' /\ b <= y < b' /\ c <= z < c'.
Proof.
  split.
  - intros (H1 & H2 & H). destruct k as [|x [|y [|z [|]]]]; simpl in *; try lia.
    exists x, y, z. split; [reflexivity|]. split; [apply (H O); lia|]. split; [apply (H 1%nat); lia|apply (H 2%nat); lia].
  - intros (x & y & z & -> & Hx & Hy & Hz). split; [reflexivity|]. split; [reflexivity|].
    intros [|[|[|r]]] Hr; simpl in *; lia.
Qed.

Lemma within_half_open3 w a b c x y z : within_half_open w [a; b; c] [x; y; z] <->
  a - w <= x < a + w /\ b - w <= y < b + w /\ c - w <= z < c + w.
Proof.
  unfold within_half_open. cbn [length]. split.
  - intros [_ H]. split; [apply (H O); lia|]. split; [apply (H 1%nat); lia|apply (H 2%nat); lia].
  - intros (H1 & H2 & H3). split; [reflexivity|]. intros [|[|[|r]]] Hr; simpl; lia.
Qed.

Lemma buffer3 w l0 l1 l2 u0 u1 u2 d : valid_tags d -> forall k,
  let centres := inside [l0 + w; l1 + w; l2 + w] [u0 - w; u1 - w; u2 - w] in
  ((exists c, centres c /\ within_half_open w c k) ->
   TagBuffer3 w (mkBox [l0; l1; l2] [u0; u1; u2]) d k = Z.max (d k) (2 - d k)) /\
  ((forall c, centres c -> ~ within_half_open w c k) ->
   TagBuffer3 w (mkBox [l0; l1; l2] [u0; u1; u2]) d k = d k).
Proof.
  intros V k centres. rewrite TagBuffer3_spread.
  destruct (spread_spec F2 (fun _ => true)) with (nb := nb3 w)
    (cs := loop_indices (lower (centres3 w (mkBox [l0; l1; l2] [u0; u1; u2]))) (upper (centres3 w (mkBox [l0; l1; l2] [u0; u1; u2]))))
    (d := d) (k := k) as (_ & A & B); auto.
  { intros v Hv. rewrite F2_eq by lia. lia. }
  { intros v Hv. rewrite !F2_eq; rewrite ?F2_eq; lia. }
  assert (C : forall c, In c (loop_indices (lower (centres3 w (mkBox [l0; l1; l2] [u0; u1; u2]))) (upper (centres3 w (mkBox [l0; l1; l2] [u0; u1; u2])))) <-> centres c).
  { intros c. rewrite loop_indices_in by reflexivity. reflexivity. }
  assert (N : forall c, centres c -> (In k (nb3 w c) <-> within_half_open w c k)).
  { intros c Hc. unfold centres in Hc. apply inside3 in Hc as (x & y & z & -> & _). unfold nb3, nthZ. cbn [nth].
    rewrite loop_indices_in by reflexivity. rewrite inside3. split.
    - intros (p & q & r & -> & H). apply within_half_open3. lia.
    - intros H. pose proof (proj1 H) as Hl. destruct k as [|p [|q [|r [|]]]]; try discriminate Hl.
      apply within_half_open3 in H. exists p, q, r. split; [reflexivity|]. lia. }
  split.
  - intros (c & Hc & Hw). rewrite A; [apply F2_eq, V|]. exists c. split; [apply C, Hc|]. split; [reflexivity|].
    apply N; assumption.
  - intros Q. apply B. intros c Hc _ Hn. apply C in Hc. apply N in Hn; [|assumption]. exact (Q c Hc Hn).
Qed.

(** ** 1d *)

Lemma toggles_spec n l : forall d, NoDup l -> (forall k, In k l -> 0 <= k < n) ->
  exists d', fold_left (toggle n) l (Some d) = Some d' /\
    (forall k, In k l -> d' [k] = char_of (2 - d [k])) /\ (forall i, (forall k, In k l -> i <> [k]) -> d' i = d i).
Proof.
  induction l as [|x l IH]; intros d ND R.
  - exists d. split; [reflexivity|]. split; [intros k []|reflexivity].
  - inversion ND as [|? ? Hx ND']; subst. cbn [fold_left toggle].
    assert (Rx := R x (or_introl eq_refl)).
    replace ((0 <=? x) && (x <? n)) with true by (symmetry; apply andb_true_iff; split; [apply Z.leb_le|apply Z.ltb_lt]; lia).
    destruct (IH (set_tag d [x] (char_of (2 - d [x]))) ND') as (d' & E & A & B).
    { intros k Hk. apply R. right. assumption. }
    exists d'. split; [exact E|]. split.
    + intros k [<- | Hk].
      * rewrite B; [apply set_tag_same|]. intros k Hk Q. injection Q as ->. contradiction.
      * rewrite A by assumption. rewrite set_tag_other; [reflexivity|]. intros Q. injection Q as ->. contradiction.
    + intros i Hi. rewrite B by (intros k Hk; apply Hi; right; assumption).
      apply set_tag_other. apply Hi. left. reflexivity.
Qed.

Lemma fold_none w n l : fold_left (buffer1_at w n) l None = None.
Proof. induction l as [|x l IH]; [reflexivity|]. cbn [fold_left buffer1_at]. exact IH. Qed.

Lemma toggle_none n l : fold_left (toggle n) l None = None.
Proof. induction l as [|x l IH]; [reflexivity|]. cbn [fold_left toggle]. exact IH. Qed.

Lemma fold_left_map {A B C} (f : A -> C -> A) (g : B -> C) l : forall a,
  fold_left (fun a b => f a (g b)) l a = fold_left f (map g l) a.
Proof. induction l as [|x l IH]; intros a; [reflexivity|]. cbn [fold_left map]. apply IH. Qed.

Definition flips (w i : Z) : list Z :=
  map (fun j => i + j) (zrange 0 w) ++ map (fun j => i - j - 1) (map (fun j => w - j) (zrange 0 w)).

Lemma buffer1_at_flips w n d i :
  buffer1_at w n (Some d) i = if d [i] =? 1 then fold_left (toggle n) (flips w i) (Some d) else Some d.
Proof.
  unfold buffer1_at, flips. destruct (d [i] =? 1); [|reflexivity].
  rewrite (fold_left_map (toggle n) (fun j => i + j)), (fold_left_map (toggle n) (fun j => i - j - 1)), fold_left_app.
  reflexivity.
Qed.

Lemma flips_in w i k : In k (flips w i) <-> i <= k < i + w \/ i - w - 1 <= k < i - 1.
Proof.
  unfold flips. rewrite in_app_iff, map_map, !in_map_iff. split.
  - intros [(j & <- & H) | (j & <- & H)]; apply in_zrange in H; lia.
  - intros [H|H].
    + left. exists (k - i). split; [lia|]. apply in_zrange. lia.
    + right. exists (k - (i - w - 1)). split; [lia|]. apply in_zrange. lia.
Qed.

Lemma NoDup_zrange a b : NoDup (zrange a b).
Proof.
  unfold zrange. apply FinFun.Injective_map_NoDup; [intros x y H; lia|apply seq_NoDup].
Qed.

Lemma NoDup_flips w i : NoDup (flips w i).
Proof.
  unfold flips. rewrite map_map.
  assert (D : forall (f g : Z -> Z) l m, NoDup (map f l) -> NoDup (map g m) ->
    (forall x, In x (map f l) -> ~ In x (map g m)) -> NoDup (map f l ++ map g m)).
  { intros f g l m. generalize (map f l) (map g m). clear. intros l m Hl Hm H. induction Hl as [|x l Hx Hl IH]; [assumption|].
    cbn [app]. constructor.
    - rewrite in_app_iff. intros [Q|Q]; [contradiction|]. exact (H x (or_introl eq_refl) Q).
    - apply IH. intros y Hy. apply H. right. assumption. }
  apply D.
  - apply FinFun.Injective_map_NoDup; [intros x y H; lia|apply NoDup_zrange].
  - apply FinFun.Injective_map_NoDup; [intros x y H; lia|apply NoDup_zrange].
  - intros x H1 H2. apply in_map_iff in H1 as (j & <- & H1). apply in_map_iff in H2 as (k & E & H2).
    apply in_zrange in H1, H2. lia.
Qed.

(** Processing a cell which is not the first one of the loop. *)
Lemma buffer1_at_some w n (d : tags) i : 0 <= w -> w < i < n - w ->
  exists d', buffer1_at w n (Some d) i = Some d' /\
    (d [i] <> 1 -> d' = d) /\
    (d [i] = 1 -> (forall k, i <= k < i + w \/ i - w - 1 <= k < i - 1 -> d' [k] = char_of (2 - d [k])) /\
                  (forall k, ~ (i <= k < i + w \/ i - w - 1 <= k < i - 1) -> d' [k] = d [k])) .
Proof.
  intros Hw Hi. rewrite buffer1_at_flips. destruct (Z.eqb_spec (d [i]) 1) as [E|E].
  - destruct (toggles_spec n (flips w i) d) as (d' & F & A & B).
    + apply NoDup_flips.
    + intros k Hk. apply flips_in in Hk. lia.
    + exists d'. split; [exact F|]. split; [congruence|]. intros _. split.
      * intros k Hk. apply A. apply flips_in. assumption.
      * intros k Hk. apply B. intros j Hj Q. injection Q as ->. apply Hk. apply flips_in. assumption.
  - exists d. split; [reflexivity|]. split; [reflexivity|congruence].
Qed.

Lemma buffer1_some w n l : 0 <= w -> (forall i, In i l -> w < i < n - w) ->
  forall d, exists d', fold_left (buffer1_at w n) l (Some d) = Some d'.
Proof.
  intros Hw. induction l as [|i l IH]; intros H d; [exists d; reflexivity|]. cbn [fold_left].
  destruct (buffer1_at_some w n d i Hw) as (d' & -> & _); [apply H; left; reflexivity|].
  apply IH. intros j Hj. apply H. right. assumption.
Qed.

Lemma zrange_nil a b : b <= a -> zrange a b = [].
Proof. intros H. unfold zrange. replace (Z.to_nat (b - a)) with O by lia. reflexivity. Qed.

Lemma zrange_cons a b : a < b -> zrange a b = a :: zrange (a + 1) b.
Proof.
  intros H. unfold zrange. replace (Z.to_nat (b - a)) with (S (Z.to_nat (b - (a + 1)))) by lia.
  cbn [seq map]. rewrite Z.add_0_r. f_equal. rewrite <- seq_shift, map_map. apply map_ext. intros k. lia.
Qed.

Lemma zrange_app a b c : a <= b <= c -> zrange a c = zrange a b ++ zrange b c.
Proof.
  intros H. unfold zrange. replace (Z.to_nat (c - a)) with (Z.to_nat (b - a) + Z.to_nat (c - b))%nat by lia.
  rewrite seq_app, map_app. f_equal. cbn [Nat.add].
  rewrite <- (Nat.add_0_r (Z.to_nat (b - a))) at 1.
  generalize (Z.to_nat (c - b)). intros m. revert m.
  assert (G : forall m s, map (fun k => a + Z.of_nat k) (seq (Z.to_nat (b - a) + s) m) = map (fun k => b + Z.of_nat k) (seq s m)).
  { induction m as [|m IH]; intros s; [reflexivity|]. cbn [seq map]. f_equal; [lia|].
    rewrite <- IH. f_equal. f_equal. lia. }
  intros m. rewrite (G m O). reflexivity.
Qed.

Lemma buffer1_first w n (d : tags) : 1 <= w -> w < n - w -> d [w] = 1 -> buffer1_at w n (Some d) w = None.
Proof.
  intros H1 H2 E. rewrite buffer1_at_flips, E. cbn [Z.eqb Pos.eqb]. unfold flips. rewrite fold_left_app.
  match goal with |- fold_left _ _ ?x = _ => destruct x as [d'|]; [|apply toggle_none] end.
  rewrite zrange_cons by lia. cbn [map fold_left toggle]. replace (w - (w - 0) - 1) with (-1) by lia.
  cbn [Z.leb Z.compare andb]. apply toggle_none.
Qed.

Lemma buffer1_undefined w n (d : tags) : 0 <= w -> (TagBuffer1 w n d = None <-> 1 <= w /\ 2 * w < n /\ d [w] = 1).
Proof.
  intros Hw. unfold TagBuffer1. destruct (Z_lt_le_dec w (n - w)) as [H|H].
  - rewrite zrange_cons by assumption. cbn [fold_left].
    assert (OK : forall d', exists e, fold_left (buffer1_at w n) (zrange (w + 1) (n - w)) (Some d') = Some e).
    { intros d'. apply buffer1_some; [assumption|]. intros i Hi. apply in_zrange in Hi. lia. }
    split.
    + intros N. destruct (Z.eq_dec (d [w]) 1) as [E|E].
      * destruct (Z.eq_dec w 0) as [-> |]; [|lia]. exfalso.
        rewrite buffer1_at_flips, E in N. cbn in N. destruct (OK d) as (e & Q). cbn in Q. congruence.
      * exfalso. rewrite buffer1_at_flips in N. apply Z.eqb_neq in E. rewrite E in N.
        destruct (OK d) as (e & Q). congruence.
    + intros (W1 & W2 & E). rewrite buffer1_first by (assumption || lia). apply fold_none.
  - rewrite zrange_nil by assumption. cbn [fold_left]. split; [discriminate|lia].
Qed.

Lemma buffer1_quiet w n l (d : tags) : (forall i, In i l -> d [i] <> 1) -> fold_left (buffer1_at w n) l (Some d) = Some d.
Proof.
  induction l as [|i l IH]; intros H; [reflexivity|]. cbn [fold_left].
  rewrite buffer1_at_flips. rewrite (proj2 (Z.eqb_neq _ _) (H i (or_introl eq_refl))).
  apply IH. intros j Hj. apply H. right. assumption.
Qed.

Lemma buffer1_single w n (d : tags) i : 1 <= w -> w < i < n - w -> d [i] = 1 -> (forall k, 0 <= k < n -> k <> i -> d [k] = 0) ->
  exists d', TagBuffer1 w n d = Some d' /\
    (forall k, 0 <= k < n -> (d' [k] <> 0 <-> i <= k < i + w \/ i - w - 1 <= k < i - 1)).
Proof.
  intros Hw Hi E Z0. unfold TagBuffer1.
  rewrite (zrange_app w i (n - w)) by lia. rewrite (zrange_cons i) by lia. rewrite fold_left_app. cbn [fold_left].
  rewrite buffer1_quiet.
  2:{ intros k Hk. apply in_zrange in Hk. rewrite Z0 by lia. lia. }
  destruct (buffer1_at_some w n d i ltac:(lia) Hi) as (d' & -> & _ & A). destruct (A E) as [A1 A2]. clear A.
  assert (D : forall k, 0 <= k < n -> d' [k] = if Z.eq_dec k i then 1 else if Z_le_dec i k then (if Z_lt_dec k (i + w) then 2 else 0) else
      if Z_le_dec (i - w - 1) k then (if Z_lt_dec k (i - 1) then 2 else 0) else 0).
  { intros k Hk. destruct (Z.eq_dec k i) as [-> | N].
    - rewrite A1 by lia. rewrite E. reflexivity.
    - destruct (Z_le_dec i k); [destruct (Z_lt_dec k (i + w))|destruct (Z_le_dec (i - w - 1) k); [destruct (Z_lt_dec k (i - 1))|]];
        try (rewrite A1 by lia; rewrite Z0 by lia; reflexivity); rewrite A2 by lia; apply Z0; lia. }
  exists d'. split.
  - apply buffer1_quiet. intros k Hk. apply in_zrange in Hk. rewrite D by lia.
    destruct (Z.eq_dec k i); [lia|]. destruct (Z_le_dec i k); [destruct (Z_lt_dec k (i + w)); lia|].
    destruct (Z_le_dec (i - w - 1) k); [destruct (Z_lt_dec k (i - 1)); lia|lia].
  - intros k Hk. rewrite D by assumption.
    destruct (Z.eq_dec k i); [lia|]. destruct (Z_le_dec i k); [destruct (Z_lt_dec k (i + w)); lia|].
    destruct (Z_le_dec (i - w - 1) k); [destruct (Z_lt_dec k (i - 1)); lia|lia].
Qed.

Definition zero_one (n : Z) (d : tags) : Prop := forall k, 0 <= k < n -> d [k] = 0 \/ d [k] = 1.

Lemma toggles_effect n l : forall d d', fold_left (toggle n) l (Some d) = Some d' -> NoDup l ->
  forall k, (In k l -> d' [k] = char_of (2 - d [k])) /\ (~ In k l -> d' [k] = d [k]).
Proof.
  induction l as [|x l IH]; intros d d' E ND k.
  - cbn in E. injection E as ->. split; [intros []|reflexivity].
  - inversion ND as [|? ? Hx ND']; subst. cbn [fold_left toggle] in E.
    destruct ((0 <=? x) && (x <? n)); [|rewrite toggle_none in E; discriminate].
    destruct (IH _ _ E ND' k) as [A B]. split.
    + intros [<- | Hk].
      * rewrite B by assumption. apply set_tag_same.
      * rewrite A by assumption. rewrite set_tag_other; [reflexivity|]. intros Q. injection Q as ->. contradiction.
    + intros Hk. rewrite B by (intros Q; apply Hk; right; assumption).
      apply set_tag_other. intros Q. injection Q as ->. apply Hk. left. reflexivity.
Qed.

Lemma buffer1_keep w n (d0 : tags) l : 0 <= w -> (forall i, In i l -> w <= i < n - w) -> forall d d' : tags,
  (forall k, 0 <= k < n -> (d0 [k] = 1 -> d [k] = 1) /\ (d0 [k] = 0 -> d [k] = 0 \/ d [k] = 2)) ->
  zero_one n d0 ->
  fold_left (buffer1_at w n) l (Some d) = Some d' ->
  (forall k, 0 <= k < n -> (d0 [k] = 1 -> d' [k] = 1) /\ (d0 [k] = 0 -> d' [k] = 0 \/ d' [k] = 2)) /\
  (forall k, 0 <= k < n -> (forall i, In i l -> d0 [i] = 1 -> w + 1 < Z.abs (k - i)) -> d' [k] = d [k]).
Proof.
  intros Hw. induction l as [|i l IH]; intros Hl d d' Inv ZO E.
  - cbn in E. injection E as ->. split; [assumption|reflexivity].
  - cbn [fold_left] in E. rewrite buffer1_at_flips in E.
    assert (Hi := Hl i (or_introl eq_refl)).
    assert (Hl' : forall j, In j l -> w <= j < n - w) by (intros j Hj; apply Hl; right; assumption).
    destruct (Z.eqb_spec (d [i]) 1) as [D1|D1].
    + destruct (fold_left (toggle n) (flips w i) (Some d)) as [d1|] eqn:E1; [|rewrite fold_none in E; discriminate].
      pose proof (toggles_effect n _ d d1 E1 (NoDup_flips w i)) as T.
      assert (S0 : d0 [i] = 1).
      { destruct (ZO i ltac:(lia)) as [Q|Q]; [|assumption]. destruct (Inv i ltac:(lia)) as [_ R]. specialize (R Q). lia. }
      destruct (IH Hl' d1 d') as [A B]; auto.
      * intros k Hk. destruct (Inv k Hk) as [I1 I2]. destruct (T k) as [T1 T2].
        destruct (in_dec Z.eq_dec k (flips w i)) as [J|J].
        -- rewrite (T1 J). split; intros Q.
           ++ rewrite (I1 Q). reflexivity.
           ++ destruct (I2 Q) as [-> | ->]; [right|left]; reflexivity.
        -- rewrite (T2 J). auto.
      * split; [exact A|]. intros k Hk Far. rewrite B; auto.
        -- apply (proj2 (T k)). rewrite flips_in. specialize (Far i (or_introl eq_refl) S0). lia.
        -- intros j Hj Sj. apply Far; [right; assumption|assumption].
    + destruct (IH Hl' d d') as [A B]; auto. split; [exact A|]. intros k Hk Far. apply B; auto.
      intros j Hj Sj. apply Far; [right; assumption|assumption].
Qed.

Lemma buffer1_kept w n (d d' : tags) : 0 <= w -> zero_one n d -> TagBuffer1 w n d = Some d' ->
  (forall k, 0 <= k < n -> d [k] = 1 -> d' [k] = 1) /\
  (forall k, 0 <= k < n -> (forall i, 0 <= i < n -> d [i] = 1 -> w + 1 < Z.abs (k - i)) -> d' [k] = d [k]).
Proof.
  intros Hw ZO E. destruct (buffer1_keep w n d (zrange w (n - w)) Hw) with (d := d) (d' := d') as [A B]; auto.
  - intros i Hi. apply in_zrange in Hi. assumption.
  - split.
    + intros k Hk Q. apply A; assumption.
    + intros k Hk Far. apply B; [assumption|]. intros i Hi Q. apply in_zrange in Hi. apply Far; [lia|assumption].
Qed.
