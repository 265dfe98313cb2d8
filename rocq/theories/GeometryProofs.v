(** Lemmas about polygons: segments, the loop over chunks. *)
From Coq Require Import List ZArith Lia Reals Lra Bool.
From Verif Require Import GeometryModel GeometrySpec.
Import ListNotations.
Local Open Scope R_scope.

(** ** Folding commutative monoids over lanes *)
Section Monoid.
  Context {A : Type} (op : A -> A -> A) (e : A).
  Hypothesis op_assoc : forall a b c, op a (op b c) = op (op a b) c.
  Hypothesis op_comm : forall a b, op a b = op b a.
  Hypothesis op_unit : forall a, op e a = a.

  Definition mfold (l : list A) : A := fold_left op l e.

  Lemma fold_left_op l a : fold_left op l a = op a (mfold l).
  Proof.
    unfold mfold. revert a. induction l as [|x l IH]; intros a; cbn [fold_left].
    - rewrite op_comm, op_unit. reflexivity.
    - rewrite IH, (IH (op e x)), op_unit. symmetry. apply op_assoc.
  Qed.
  Lemma mfold_cons a l : mfold (a :: l) = op a (mfold l).
  Proof. unfold mfold at 1. cbn [fold_left]. rewrite op_unit. apply fold_left_op. Qed.
  Lemma mfold_app l1 l2 : mfold (l1 ++ l2) = op (mfold l1) (mfold l2).
  Proof.
    induction l1 as [|a l1 IH]; cbn [app].
    - unfold mfold at 2. cbn. rewrite op_unit. reflexivity.
    - rewrite !mfold_cons, IH. apply op_assoc.
  Qed.
  Lemma mfold_map_op {B} (f g : B -> A) l : mfold (map (fun i => op (f i) (g i)) l) = op (mfold (map f l)) (mfold (map g l)).
  Proof.
    induction l as [|b l IH]; cbn [map].
    - unfold mfold. cbn. rewrite op_unit. reflexivity.
    - rewrite !mfold_cons, IH. rewrite <- !op_assoc. f_equal. rewrite !op_assoc. f_equal. apply op_comm.
  Qed.
  Lemma mfold_unit {B} (f : B -> A) l : (forall b, In b l -> f b = e) -> mfold (map f l) = e.
  Proof.
    induction l as [|b l IH]; intros H; cbn [map]; [reflexivity|].
    rewrite mfold_cons, (H b), op_unit; [|left; reflexivity]. apply IH. intros c Hc. apply H. right. exact Hc.
  Qed.
  (** the lanes 0 .. w-1 of the elements from [first] on *)
  Lemma mfold_lanes (c : nat -> A) first w : mfold (map (fun i => c (first + i)%nat) (seq 0 w)) = mfold (map c (seq first w)).
  Proof.
    f_equal. rewrite <- (map_map (fun i => (first + i)%nat) c). f_equal.
    revert first. induction w as [|w IH]; intros first; [reflexivity|]. cbn [seq map]. f_equal; [lia|].
    rewrite <- (IH (S first)). rewrite <- seq_shift, map_map. apply map_ext. intros i. lia.
  Qed.
  (** only the first [n] lanes are used *)
  Lemma mfold_tail (c : nat -> A) first w n : (n <= w)%nat ->
    mfold (map (fun i => if (i <? n)%nat then c (first + i)%nat else e) (seq 0 w)) = mfold (map c (seq first n)).
  Proof.
    intros L. replace w with (n + (w - n))%nat by lia. rewrite seq_app, map_app, mfold_app.
    rewrite (mfold_unit _ (seq (0 + n) _)).
    - rewrite op_comm, op_unit, <- (mfold_lanes c first n). f_equal. apply map_ext_in. intros i Hi. apply in_seq in Hi.
      destruct (Nat.ltb_spec i n); [reflexivity|lia].
    - intros b Hb. apply in_seq in Hb. destruct (Nat.ltb_spec b n); [lia|reflexivity].
  Qed.
End Monoid.

Lemma dmin_assoc a b c : dmin a (dmin b c) = dmin (dmin a b) c.
Proof. destruct a, b, c; cbn; try reflexivity. f_equal. unfold Rmin. repeat destruct (Rle_dec _ _); lra. Qed.
Lemma dmin_comm a b : dmin a b = dmin b a.
Proof. destruct a, b; cbn; try reflexivity. f_equal. apply Rmin_comm. Qed.
Lemma dmin_unit a : dmin None a = a.
Proof. reflexivity. Qed.

Notation zsum := (mfold Z.add 0%Z).
Notation dmins := (mfold dmin None).

(** ** The loop *)

Definition vertex (xs ys : list R) (k : nat) : point := (nth k xs 0, nth k ys 0).

Lemma load_some xs first n : (first + n <= length xs)%nat -> load xs first n = Some (fun i => nth (first + i) xs 0).
Proof. intros H. unfold load. apply Nat.leb_le in H. rewrite H. reflexivity. Qed.

Lemma chunks_spec w xs ys p : (0 < w)%nat -> length ys = length xs -> forall fuel first st,
  (first < length xs)%nat -> (length xs - first <= fuel)%nat ->
  exists st', chunks fuel w xs ys p first st = Some st' /\
    zsum (map (fst st') (seq 0 w)) = (zsum (map (fst st) (seq 0 w)) +
      zsum (map (fun k => CountCrossedLines (vertex xs ys k) (vertex xs ys (k + 1)) p) (seq first (length xs - 1 - first))))%Z /\
    dmins (map (snd st') (seq 0 w)) = dmin (dmins (map (snd st) (seq 0 w)))
      (dmins (map (fun k => Some (Distance3 (vertex xs ys k) (vertex xs ys (k + 1)) p)) (seq first (length xs - 1 - first)))).
Proof.
  intros W L. set (cr := fun k => CountCrossedLines (vertex xs ys k) (vertex xs ys (k + 1)) p).
  set (ds := fun k => Some (Distance3 (vertex xs ys k) (vertex xs ys (k + 1)) p)).
  induction fuel as [|fuel IH]; intros first st F B; [lia|]. cbn [chunks].
  destruct (Z.ltb_spec (Z.of_nat w + 1) (Z.of_nat (length xs) - Z.of_nat first)) as [C|C].
  - rewrite !load_some by lia.
    match goal with |- context [chunks fuel w xs ys p (first + w) ?st] => destruct (IH (first + w)%nat st) as (st' & E1 & E2 & E3) end; [lia|lia|].
    exists st'. split; [exact E1|]. cbn [fst snd] in E2, E3. split.
    + rewrite E2, (mfold_map_op Z.add 0%Z Z.add_assoc Z.add_comm Z.add_0_l), <- Z.add_assoc. f_equal.
      replace (length xs - 1 - first)%nat with (w + (length xs - 1 - (first + w)))%nat by lia.
      rewrite seq_app, map_app, (mfold_app Z.add 0%Z Z.add_assoc Z.add_comm Z.add_0_l). f_equal.
      rewrite <- (mfold_lanes Z.add 0%Z cr first w). f_equal. apply map_ext. intros i.
      unfold cr, vertex. replace (first + 1 + i)%nat with (first + i + 1)%nat by lia. reflexivity.
    + rewrite E3, (mfold_map_op dmin None dmin_assoc dmin_comm dmin_unit), <- dmin_assoc. f_equal.
      replace (length xs - 1 - first)%nat with (w + (length xs - 1 - (first + w)))%nat by lia.
      rewrite seq_app, map_app, (mfold_app dmin None dmin_assoc dmin_comm dmin_unit). f_equal.
      rewrite <- (mfold_lanes dmin None ds first w). f_equal. apply map_ext. intros i.
      unfold ds, vertex. replace (first + 1 + i)%nat with (first + i + 1)%nat by lia. reflexivity.
  - destruct (Z.ltb_spec (Z.of_nat (length xs) - Z.of_nat first - 1) 0); [lia|].
    replace (Z.to_nat (Z.of_nat (length xs) - Z.of_nat first - 1)) with (length xs - 1 - first)%nat by lia.
    set (n := (length xs - 1 - first)%nat). rewrite !load_some by lia. eexists. split; [reflexivity|]. cbn [fst snd]. split.
    + rewrite (mfold_map_op Z.add 0%Z Z.add_assoc Z.add_comm Z.add_0_l). f_equal.
      rewrite <- (mfold_tail Z.add 0%Z Z.add_assoc Z.add_comm Z.add_0_l cr first w n) by lia. f_equal. apply map_ext. intros i.
      unfold CountCrossedLinesN, cr, vertex. destruct (i <? n)%nat; [|reflexivity].
      replace (first + 1 + i)%nat with (first + i + 1)%nat by lia. reflexivity.
    + rewrite (mfold_map_op dmin None dmin_assoc dmin_comm dmin_unit). f_equal.
      rewrite <- (mfold_tail dmin None dmin_assoc dmin_comm dmin_unit ds first w n) by lia. f_equal. apply map_ext. intros i.
      unfold DistanceN, ds, vertex. destruct (i <? n)%nat; [|reflexivity].
      replace (first + 1 + i)%nat with (first + i + 1)%nat by lia. reflexivity.
Qed.

Lemma edges_map {A} (vs : list A) d : edges vs = map (fun k => (nth k vs d, nth (k + 1) vs d)) (seq 0 (length vs - 1)).
Proof.
  induction vs as [|v [|w r] IH]; [reflexivity|reflexivity|].
  change (edges (v :: w :: r)) with ((v, w) :: edges (w :: r)). rewrite IH.
  replace (length (v :: w :: r) - 1)%nat with (S (length (w :: r) - 1)) by (cbn [length]; lia).
  cbn [seq map]. f_equal. rewrite <- seq_shift, map_map. apply map_ext. intros k. reflexivity.
Qed.

Lemma edges_combine xs ys : length ys = length xs ->
  edges (combine xs ys) = map (fun k => (vertex xs ys k, vertex xs ys (k + 1))) (seq 0 (length xs - 1)).
Proof.
  intros L. rewrite (edges_map _ (0, 0)). rewrite combine_length, L, Nat.min_id. apply map_ext. intros k.
  unfold vertex. rewrite !combine_nth by (symmetry; exact L). reflexivity.
Qed.

(** number of crossed edges and nearest edge of a list *)
Definition crossed (p : point) (es : list (point * point)) : Z := zsum (map (fun e => CountCrossedLines (fst e) (snd e) p) es).
Definition nearest (p : point) (es : list (point * point)) : dist := dmins (map (fun e => Some (Distance3 (fst e) (snd e) p)) es).

Lemma compute_spec w xs ys p : (0 < w)%nat -> length ys = length xs -> (0 < length xs)%nat ->
  ComputeDistanceTo w xs ys p =
    Some (let positive := negb (Z.rem (crossed p (edges (combine xs ys))) 2 =? 0)%Z in
          match nearest p (edges (combine xs ys)) with
          | Some d => Finite ((if positive then 1 else -1) * d)
          | None => Infinite positive
          end).
Proof.
  intros W L N. unfold ComputeDistanceTo.
  destruct (chunks_spec w xs ys p W L (length xs) 0 (fun _ => 0%Z, fun _ => None) N ltac:(lia)) as (st & -> & E1 & E2).
  cbn [fst snd] in E1, E2.
  rewrite (mfold_unit Z.add 0%Z Z.add_assoc Z.add_comm Z.add_0_l (fun _ => 0%Z)) in E1 by reflexivity.
  rewrite (mfold_unit dmin None dmin_assoc dmin_comm dmin_unit (fun _ => None)) in E2 by reflexivity.
  rewrite Z.add_0_l in E1. rewrite dmin_unit in E2.
  unfold crossed, nearest. rewrite (edges_combine xs ys L), !map_map. cbn [fst snd].
  rewrite Nat.sub_0_r in E1, E2. unfold mfold in E1, E2 |- *. rewrite E1, E2. reflexivity.
Qed.

(** ** One edge *)

Lemma sqrt_le_of_sq a b : 0 <= b -> a <= b * b -> sqrt a <= b.
Proof. intros B H. rewrite <- (sqrt_square b B). apply sqrt_le_1_alt. exact H. Qed.

Lemma Distance2_distance p q : Distance2 p q = distance p q.
Proof. unfold Distance2, distance, Dot. cbn [fst snd]. f_equal. ring. Qed.

Lemma Distance3_spec v w p : is_distance distance (on_segment v w) p (Distance3 v w p).
Proof.
  destruct v as [v0 v1], w as [w0 w1], p as [p0 p1]. unfold Distance3, Dot. cbn [fst snd].
  set (a := w0 - v0). set (b := w1 - v1). set (c := p0 - v0). set (d := p1 - v1). set (l := a * a + b * b).
  destruct (Rlt_dec 0 l) as [P|P].
  - set (s := (c * a + d * b) / l). assert (S : s * l = c * a + d * b) by (unfold s; field; lra).
    set (t := Rmax (Rmin s 1) 0).
    assert (T : 0 <= t <= 1) by (unfold t, Rmax, Rmin; repeat destruct (Rle_dec _ _); lra).
    split.
    + exists ((1 - t) * v0 + t * w0, (1 - t) * v1 + t * w1). split; [|symmetry; apply Distance2_distance].
      exists t. split; [exact T|reflexivity].
    + intros q (u & U & ->). rewrite Distance2_distance. unfold distance. cbn [fst snd]. apply sqrt_le_1_alt.
      assert (K : (p0 - ((1 - u) * v0 + u * w0)) ^ 2 + (p1 - ((1 - u) * v1 + u * w1)) ^ 2
                - ((p0 - ((1 - t) * v0 + t * w0)) ^ 2 + (p1 - ((1 - t) * v1 + t * w1)) ^ 2) = l * ((u - t) * (u + t - 2 * s))).
      { transitivity ((u - t) * ((u + t) * l - 2 * (s * l))); [|ring]. rewrite S. unfold l, a, b, c, d. ring. }
      assert (0 <= (u - t) * (u + t - 2 * s)).
      { destruct (Rle_dec s 0) as [S0|S0]; [|destruct (Rle_dec s 1) as [S1|S1]].
        - assert (E : t = 0) by (unfold t, Rmax, Rmin; repeat destruct (Rle_dec _ _); lra). rewrite E. apply Rmult_le_pos; lra.
        - assert (E : t = s) by (unfold t, Rmax, Rmin; repeat destruct (Rle_dec _ _); lra). rewrite E.
          replace (u + s - 2 * s) with (u - s) by ring. apply Rle_0_sqr.
        - assert (E : t = 1) by (unfold t, Rmax, Rmin; repeat destruct (Rle_dec _ _); lra). rewrite E.
          replace ((u - 1) * (u + 1 - 2 * s)) with ((1 - u) * (2 * s - u - 1)) by ring. apply Rmult_le_pos; lra. }
      assert (0 <= l * ((u - t) * (u + t - 2 * s))) by (apply Rmult_le_pos; lra). lra.
  - assert (A : a = 0 /\ b = 0) by (unfold l in P; split; nra). destruct A as [A B]. unfold a in A. unfold b in B.
    split.
    + exists (v0, v1). split; [|symmetry; apply Distance2_distance]. exists 0. split; [lra|]. cbn [fst snd]. f_equal; ring.
    + intros q (u & U & ->). rewrite Distance2_distance. unfold distance. cbn [fst snd].
      replace ((1 - u) * v0 + u * w0) with v0 by (replace w0 with v0 by lra; ring).
      replace ((1 - u) * v1 + u * w1) with v1 by (replace w1 with v1 by lra; ring). lra.
Qed.

Lemma dmins_cons a l : dmins (a :: l) = dmin a (dmins l).
Proof. apply (mfold_cons dmin None dmin_assoc dmin_comm dmin_unit). Qed.

Lemma zsum_cons a l : zsum (a :: l) = (a + zsum l)%Z.
Proof. apply (mfold_cons Z.add 0%Z Z.add_assoc Z.add_comm Z.add_0_l). Qed.

Lemma nearest_spec p es : es <> [] -> exists d, nearest p es = Some d /\
  is_distance distance (fun q => exists v w, In (v, w) es /\ on_segment v w q) p d.
Proof.
  unfold nearest. induction es as [|[v w] es IH]; [congruence|]. intros _. cbn [map]. rewrite dmins_cons. cbn [fst snd].
  destruct (Distance3_spec v w p) as [(q & Q1 & Q2) Q3]. destruct es as [|e es].
  - exists (Distance3 v w p). split; [reflexivity|]. split.
    + exists q. split; [exists v, w; split; [left; reflexivity|exact Q1]|exact Q2].
    + intros z (v' & w' & [E|[]] & Z). apply pair_equal_spec in E as [<- <-]. apply Q3, Z.
  - destruct IH as (d & -> & (q' & (v1 & w1 & I & S) & D) & M); [congruence|]. cbn [dmin].
    exists (Rmin (Distance3 v w p) d). split; [reflexivity|]. split.
    + unfold Rmin. destruct (Rle_dec _ _).
      * exists q. split; [exists v, w; split; [left; reflexivity|exact Q1]|exact Q2].
      * exists q'. split; [exists v1, w1; split; [right; exact I|exact S]|exact D].
    + intros z (v' & w' & [E|I'] & Z).
      * apply pair_equal_spec in E as [<- <-]. apply Rle_trans with (Distance3 v w p); [apply Rmin_l|apply Q3, Z].
      * apply Rle_trans with d; [apply Rmin_r|]. apply M. exists v', w'. split; [exact I'|exact Z].
Qed.

(** crossing *)
Lemma ltb_spec x y : ltb x y = true <-> x < y.
Proof. unfold ltb. destruct (Rlt_dec x y); split; intros; try discriminate; auto; lra. Qed.
Lemma leb_spec x y : leb x y = true <-> x <= y.
Proof. unfold leb. destruct (Rle_dec x y); split; intros; try discriminate; auto; lra. Qed.

Definition xint (v w p : point) : R :=
  let t := (snd p - snd v) / (snd w - snd v) in (1 - t) * fst v + t * fst w.

Lemma crossed_cases v w p : CountCrossedLines v w p = 1%Z \/ CountCrossedLines v w p = 0%Z.
Proof. unfold CountCrossedLines. destruct (_ && _); auto. Qed.

Lemma crossed_iff v w p : CountCrossedLines v w p = 1%Z <->
  (snd v < snd p <= snd w \/ snd w < snd p <= snd v) /\ xint v w p < fst p.
Proof.
  unfold CountCrossedLines. fold (xint v w p). destruct (_ && _) eqn:E.
  - apply andb_true_iff in E as [E1 E2]. apply ltb_spec in E2. apply orb_true_iff in E1.
    split; [intros _|reflexivity]. split; [|exact E2].
    destruct E1 as [E1|E1]; apply andb_true_iff in E1 as [A B]; apply ltb_spec in A; apply leb_spec in B; [left|right]; split; assumption.
  - split; [discriminate|]. intros [H X]. exfalso. apply ltb_spec in X. rewrite X, andb_true_r in E.
    apply orb_false_iff in E as [E1 E2]. destruct H as [[A B]|[A B]]; apply ltb_spec in A; apply leb_spec in B.
    + rewrite A, B in E1. discriminate.
    + rewrite A, B in E2. discriminate.
Qed.

Lemma segment_level (v w p q : point) : snd v <> snd w -> on_segment v w q -> snd q = snd p -> fst q = xint v w p.
Proof.
  intros N (t & T & ->). cbn [fst snd]. intros E. unfold xint.
  assert (Et : (snd p - snd v) / (snd w - snd v) = t) by (rewrite <- E; field; lra). rewrite Et. reflexivity.
Qed.

Lemma level_param (v w p : point) : (snd v < snd p <= snd w \/ snd w < snd p <= snd v) ->
  0 <= (snd p - snd v) / (snd w - snd v) <= 1.
Proof.
  intros [H|H].
  - split; [apply Rmult_le_pos; [lra|left; apply Rinv_0_lt_compat; lra]|].
    apply Rmult_le_reg_r with (snd w - snd v); [lra|]. unfold Rdiv. rewrite Rmult_assoc, Rinv_l by lra. lra.
  - replace ((snd p - snd v) / (snd w - snd v)) with ((snd v - snd p) / (snd v - snd w)) by (field; lra).
    split; [apply Rmult_le_pos; [lra|left; apply Rinv_0_lt_compat; lra]|].
    apply Rmult_le_reg_r with (snd v - snd w); [lra|]. unfold Rdiv. rewrite Rmult_assoc, Rinv_l by lra. lra.
Qed.

Lemma xint_on_segment (v w p : point) : (snd v < snd p <= snd w \/ snd w < snd p <= snd v) -> on_segment v w (xint v w p, snd p).
Proof.
  intros H. exists ((snd p - snd v) / (snd w - snd v)). split; [apply level_param, H|]. unfold xint. f_equal. field. destruct H; lra.
Qed.

Lemma crosses_iff v w p : crosses_ray p (v, w) <-> CountCrossedLines v w p = 1%Z.
Proof.
  rewrite crossed_iff. unfold crosses_ray. split.
  - intros [H (q & Q & E & X)]. split; [exact H|]. rewrite <- (segment_level v w p q); [exact X|destruct H; lra|exact Q|exact E].
  - intros [H X]. split; [exact H|]. exists (xint v w p, snd p). split; [apply xint_on_segment, H|]. split; [reflexivity|exact X].
Qed.

Lemma number_crossed p es n : number_of (crosses_ray p) es n -> crossed p es = Z.of_nat n.
Proof.
  unfold crossed. induction 1 as [|[v w] l n H _ IH|[v w] l n H _ IH]; cbn [map]; [reflexivity| |]; rewrite zsum_cons, IH; cbn [fst snd].
  - apply crosses_iff in H. rewrite H. lia.
  - rewrite crosses_iff in H. destruct (crossed_cases v w p) as [C|C]; [contradiction|]. rewrite C. reflexivity.
Qed.

Lemma number_exists p es : exists n, number_of (crosses_ray p) es n.
Proof.
  induction es as [|[v w] es [n IH]]; [exists 0%nat; constructor|].
  destruct (crossed_cases v w p) as [C|C].
  - exists (S n). apply num_yes; [apply crosses_iff, C|exact IH].
  - exists n. apply num_no; [|exact IH]. rewrite crosses_iff, C. discriminate.
Qed.

Lemma number_unique {A} (P : A -> Prop) l n : number_of P l n -> forall m, number_of P l m -> n = m.
Proof.
  induction 1 as [|a l n H _ IH|a l n H _ IH]; intros m Hm; inversion Hm; subst; try contradiction; auto.
Qed.

Lemma rem_parity n : negb (Z.rem (Z.of_nat n) 2 =? 0)%Z = Nat.odd n.
Proof.
  rewrite Z.rem_mod_nonneg by lia. rewrite Zmod_odd. rewrite <- Nat.negb_even, <- Z.negb_even.
  assert (E : Z.even (Z.of_nat n) = Nat.even n).
  { destruct (Nat.even n) eqn:E.
    - apply Nat.even_spec in E as [k ->]. apply Z.even_spec. exists (Z.of_nat k). lia.
    - assert (O : Nat.odd n = true) by (rewrite <- Nat.negb_even, E; reflexivity). apply Nat.odd_spec in O as [k ->].
      rewrite <- Z.negb_odd. replace (Z.of_nat (2 * k + 1)) with (2 * Z.of_nat k + 1)%Z by lia.
      rewrite (proj2 (Z.odd_spec _)); [reflexivity|]. exists (Z.of_nat k). lia. }
  rewrite E. destruct (Nat.even n); reflexivity.
Qed.
