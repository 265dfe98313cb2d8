(** Proofs about the gradients in cut cells (C101). *)
From Coq Require Import List Reals ZArith Bool Lra Lia Psatz Permutation.
From Verif Require Import MdLimiterModel MdLimiterSpec MdLimiterProofs MdLimiterProperties MdGradientModel MdGradientSpec.
Import ListNotations.
Local Open Scope R_scope.

(** ** Sorting *)

Lemma sort4_sorted : forall (first : nat -> nat -> bool) (b : nat -> R),
  (forall m n, (m < 4)%nat -> (n < 4)%nat -> first m n = true -> b n <= b m) ->
  (forall m n, (m < 4)%nat -> (n < 4)%nat -> first m n = false -> b m <= b n) ->
  exists n0 n1 n2 n3, sort4 first = [n0; n1; n2; n3] /\ Permutation [0; 1; 2; 3]%nat [n0; n1; n2; n3] /\
    b n1 <= b n0 /\ b n2 <= b n1 /\ b n3 <= b n2.
Proof.
  intros first b T F.
  pose proof (T 1 0 ltac:(lia) ltac:(lia))%nat as T10. pose proof (F 1 0 ltac:(lia) ltac:(lia))%nat as F10.
  pose proof (T 2 0 ltac:(lia) ltac:(lia))%nat as T20. pose proof (F 2 0 ltac:(lia) ltac:(lia))%nat as F20.
  pose proof (T 2 1 ltac:(lia) ltac:(lia))%nat as T21. pose proof (F 2 1 ltac:(lia) ltac:(lia))%nat as F21.
  pose proof (T 3 0 ltac:(lia) ltac:(lia))%nat as T30. pose proof (F 3 0 ltac:(lia) ltac:(lia))%nat as F30.
  pose proof (T 3 1 ltac:(lia) ltac:(lia))%nat as T31. pose proof (F 3 1 ltac:(lia) ltac:(lia))%nat as F31.
  pose proof (T 3 2 ltac:(lia) ltac:(lia))%nat as T32. pose proof (F 3 2 ltac:(lia) ltac:(lia))%nat as F32.
  clear T F. unfold sort4.
  destruct (first 1%nat 0%nat) eqn:E10; destruct (first 2%nat 0%nat) eqn:E20; destruct (first 2%nat 1%nat) eqn:E21;
  destruct (first 3%nat 0%nat) eqn:E30; destruct (first 3%nat 1%nat) eqn:E31; destruct (first 3%nat 2%nat) eqn:E32;
    cbn [fold_left]; unfold insert; rewrite ?E10, ?E20, ?E21, ?E30, ?E31, ?E32; cbn [rev app insert_back];
    rewrite ?E10, ?E20, ?E21, ?E30, ?E31, ?E32; cbn [rev app insert_back];
    rewrite ?E10, ?E20, ?E21, ?E30, ?E31, ?E32; cbn [rev app insert_back];
    rewrite ?E10, ?E20, ?E21, ?E30, ?E31, ?E32; cbn [rev app insert_back];
    repeat match goal with H : true = true -> _ |- _ => specialize (H eq_refl) | H : false = false -> _ |- _ => specialize (H eq_refl)
           | H : true = false -> _ |- _ => clear H | H : false = true -> _ |- _ => clear H end;
    do 4 eexists; (split; [reflexivity |]);
    (split; [apply NoDup_Permutation; [repeat constructor; cbn; lia | repeat constructor; cbn; lia | intro x; cbn; intuition lia] | repeat split; lra]).
Qed.

(** ** Least squares *)

Lemma sum_nonneg : forall f rows, (forall r, 0 <= f r) -> 0 <= sum_of f rows.
Proof. intros f rows H. induction rows as [| r rows IH]; cbn [sum_of fold_right]; [lra |]. specialize (H r). unfold sum_of in IH. lra. Qed.

Lemma sum_zero : forall f rows, (forall r, 0 <= f r) -> sum_of f rows = 0 -> forall r, In r rows -> f r = 0.
Proof.
  intros f rows H. induction rows as [| r rows IH]; intros E x Hx; [contradiction |].
  cbn [sum_of fold_right] in E. fold (sum_of f rows) in E. pose proof (sum_nonneg f rows H). pose proof (H r).
  destruct Hx as [<- | Hx]; [lra | apply IH; [lra | exact Hx]].
Qed.

Lemma sum_lin : forall f g h s t rows, (forall r, In r rows -> h r = s * f r + t * g r) -> sum_of h rows = s * sum_of f rows + t * sum_of g rows.
Proof.
  intros f g h s t rows. induction rows as [| r rows IH]; intro H; [cbn; ring |].
  cbn [sum_of fold_right]. fold (sum_of h rows) (sum_of f rows) (sum_of g rows).
  rewrite (H r (or_introl eq_refl)), IH by (intros x Hx; apply H; right; exact Hx). ring.
Qed.

Lemma gram_nonzero : forall (rows : list (vec * R)), (exists r s, In r rows /\ In s rows /\ fst (fst r) * snd (fst s) <> snd (fst r) * fst (fst s)) ->
  sum_of (fun r => fst (fst r) * fst (fst r)) rows * sum_of (fun r => snd (fst r) * snd (fst r)) rows -
  sum_of (fun r => fst (fst r) * snd (fst r)) rows * sum_of (fun r => fst (fst r) * snd (fst r)) rows <> 0.
Proof.
  intros rows (r & s & Hr & Hs & N) E. apply N. clear N.
  set (xx := sum_of (fun r => fst (fst r) * fst (fst r)) rows) in *.
  set (yy := sum_of (fun r => snd (fst r) * snd (fst r)) rows) in *.
  set (xy := sum_of (fun r => fst (fst r) * snd (fst r)) rows) in *.
  destruct (Req_dec xx 0) as [Zx | NZ].
  - assert (X : forall q, In q rows -> fst (fst q) = 0).
    { intros q Hq. pose proof (sum_zero (fun r => fst (fst r) * fst (fst r)) rows ltac:(intro; cbv beta; apply Rle_0_sqr) Zx q Hq) as H. cbv beta in H. apply Rsqr_0_uniq in H. exact H. }
    rewrite (X r Hr), (X s Hs). ring.
  - set (k := xy / xx).
    assert (Q : sum_of (fun r => (snd (fst r) - k * fst (fst r)) * (snd (fst r) - k * fst (fst r))) rows = 0).
    { assert (E1 : sum_of (fun r => (snd (fst r) - k * fst (fst r)) * (snd (fst r) - k * fst (fst r))) rows = 1 * yy + 1 * sum_of (fun r => (- (2 * k)) * (fst (fst r) * snd (fst r)) + (k * k) * (fst (fst r) * fst (fst r))) rows).
      { apply sum_lin. intros q _. ring. }
      rewrite E1, (sum_lin (fun r => fst (fst r) * snd (fst r)) (fun r => fst (fst r) * fst (fst r)) _ (- (2 * k)) (k * k) rows) by (intros q _; ring).
      fold xx xy. replace (1 * yy + 1 * (- (2 * k) * xy + k * k * xx)) with ((xx * yy - xy * xy) / xx) by (unfold k; field; exact NZ).
      rewrite E. unfold Rdiv. ring. }
    assert (P : forall q, In q rows -> snd (fst q) = k * fst (fst q)).
    { intros q Hq. pose proof (sum_zero (fun r => (snd (fst r) - k * fst (fst r)) * (snd (fst r) - k * fst (fst r))) rows ltac:(intro; cbv beta; apply Rle_0_sqr) Q q Hq) as H. cbv beta in H. apply Rsqr_0_uniq in H. apply Rminus_diag_uniq in H. exact H. }
    rewrite (P r Hr), (P s Hs). ring.
Qed.

Lemma least_squares_exact : forall (rows : list (vec * R)) (g : vec), (forall r, In r rows -> snd r = fst g * fst (fst r) + snd g * snd (fst r)) ->
  (exists r s, In r rows /\ In s rows /\ fst (fst r) * snd (fst s) <> snd (fst r) * fst (fst s)) ->
  least_squares rows = Some g.
Proof.
  intros rows [g1 g2] H Sp. unfold least_squares. pose proof (gram_nonzero rows Sp) as N. cbn [fst snd] in H.
  destruct (Req_EM_T _ 0) as [E | _]; [contradiction |].
  rewrite (sum_lin (fun r => fst (fst r) * fst (fst r)) (fun r => fst (fst r) * snd (fst r)) (fun r => fst (fst r) * snd r) g1 g2 rows)
    by (intros r Hr; cbv beta; rewrite (H r Hr); ring).
  rewrite (sum_lin (fun r => fst (fst r) * snd (fst r)) (fun r => snd (fst r) * snd (fst r)) (fun r => snd (fst r) * snd r) g1 g2 rows)
    by (intros r Hr; cbv beta; rewrite (H r Hr); ring).
  revert N. generalize (sum_of (fun r => fst (fst r) * fst (fst r)) rows), (sum_of (fun r => fst (fst r) * snd (fst r)) rows), (sum_of (fun r => snd (fst r) * snd (fst r)) rows).
  intros xx xy yy N. f_equal. f_equal; field; exact N.
Qed.

Lemma centroid_absolute : forall geom i dx, GetAbsoluteVolumeCentroid geom i dx = centroid geom dx i.
Proof. intros. apply centroid_position. Qed.

Lemma gradient_from_exact : forall geom dx u a g i js, linear_in_fluid geom dx u a g -> 0 < volume_fraction geom i ->
  (forall j, In j js -> 0 < volume_fraction geom j) -> spread geom dx i js -> ComputeGradientFrom geom u dx i js = Some g.
Proof.
  intros geom dx u a g i js L Hi Hj (j & k & Ij & Ik & N). unfold ComputeGradientFrom. cbv zeta. apply least_squares_exact.
  - intros r Hr. apply in_map_iff in Hr as (q & <- & Hq). cbn [fst snd]. rewrite !centroid_absolute, (L q (Hj q Hq)), (L i Hi). ring.
  - eexists. eexists. split; [apply in_map_iff; exists j; split; [reflexivity | exact Ij] |].
    split; [apply in_map_iff; exists k; split; [reflexivity | exact Ik] |]. cbn [fst snd]. rewrite !centroid_absolute. exact N.
Qed.

(** ** The faces *)

Definition side (face : nat -> index -> R) (i : index) (n : nat) : R * nat * index := (beta face i n, edge_direction n, neighbor i n).

Lemma sides_eq : forall face i, sides face i = map (side face i) [0; 1; 2; 3]%nat.
Proof. intros face [x y]. reflexivity. Qed.

Lemma side_in : forall face i n, (n < 4)%nat -> In (side face i n) (sides face i).
Proof. intros face i n H. rewrite sides_eq. apply in_map. cbn. lia. Qed.

Lemma side_inv : forall face i s, In s (sides face i) -> exists n, (n < 4)%nat /\ s = side face i n.
Proof. intros face i s H. rewrite sides_eq in H. apply in_map_iff in H as (n & <- & Hn). exists n. split; [cbn in Hn; lia | reflexivity]. Qed.

Lemma side_inj : forall face i m n, (m < 4)%nat -> (n < 4)%nat -> side face i m = side face i n -> m = n.
Proof.
  intros face [x y] m n Hm Hn E. injection E as _ _ E.
  destruct m as [| [| [| [| m]]]]; try lia; destruct n as [| [| [| [| n]]]]; try lia; cbn [neighbor fst snd] in E; injection E; intros; lia.
Qed.

Lemma sorted_faces : forall face geom i, comparable face geom i ->
  exists n0 n1 n2 n3, sort4 (comes_first face geom i) = [n0; n1; n2; n3] /\ Permutation [0; 1; 2; 3]%nat [n0; n1; n2; n3] /\
    beta face i n1 <= beta face i n0 /\ beta face i n2 <= beta face i n1 /\ beta face i n3 <= beta face i n2.
Proof.
  intros face geom i C. apply sort4_sorted; intros m n Hm Hn; unfold comes_first.
  - destruct (Rle_dec (beta face i n) (beta face i m)) as [H | H]; [intros _; exact H | discriminate].
  - intro E. specialize (C _ _ (side_in face i m Hm) (side_in face i n Hn)). unfold side in C. cbn [fst snd] in C.
    destruct C as [[C _] | [C1 C2]]; [exact C |]. exfalso. unfold alpha in E.
    destruct (Rle_dec (beta face i n) (beta face i m)); [| contradiction].
    destruct (Rle_dec (volume_fraction geom (neighbor i n)) (volume_fraction geom (neighbor i m))); [discriminate | contradiction].
Qed.

Lemma perm_in : forall n0 n1 n2 n3 n, Permutation [0; 1; 2; 3]%nat [n0; n1; n2; n3] -> (n < 4)%nat -> n = n0 \/ n = n1 \/ n = n2 \/ n = n3.
Proof.
  intros n0 n1 n2 n3 n P H. assert (I : In n [0; 1; 2; 3]%nat) by (cbn; lia).
  apply (Permutation_in n P) in I. cbn in I. intuition.
Qed.

Lemma perm_lt : forall n0 n1 n2 n3, Permutation [0; 1; 2; 3]%nat [n0; n1; n2; n3] ->
  (n0 < 4 /\ n1 < 4 /\ n2 < 4 /\ n3 < 4)%nat /\ NoDup [n0; n1; n2; n3].
Proof.
  intros n0 n1 n2 n3 P. split.
  - assert (forall n, In n [n0; n1; n2; n3] -> (n < 4)%nat) as H.
    { intros n Hn. apply (Permutation_in n (Permutation_sym P)) in Hn. cbn in Hn. lia. }
    repeat split; apply H; cbn; auto.
  - apply (Permutation_NoDup P). repeat constructor; cbn; lia.
Qed.

Lemma positive_spec : forall x, positive x = true <-> 0 < x.
Proof. intro x. unfold positive. destruct (Rlt_dec 0 x); split; intros; try assumption; try reflexivity; try discriminate; contradiction. Qed.

Lemma positive_false : forall x, positive x = false <-> ~ 0 < x.
Proof. intro x. unfold positive. destruct (Rlt_dec 0 x); split; intros; try assumption; try reflexivity; try discriminate; contradiction. Qed.

Lemma spread_incl : forall geom dx i l l', incl l l' -> spread geom dx i l -> spread geom dx i l'.
Proof. intros geom dx i l l' H (j & k & Hj & Hk & N). exists j, k. auto. Qed.

(** ** One cell *)

Section Cell.
Variables (slope : R -> R -> R -> R -> R) (face : nat -> index -> R) (geom : geometry) (dx : vec) (u : index -> R) (a : R) (g : vec) (i : index).
Hypothesis Hdx : 0 < fst dx /\ 0 < snd dx.
Hypothesis Hslope : forall m s h, 0 < h -> slope (m - s * h) m (m + s * h) h = s.
Hypothesis Hregular : forall j, volume_fraction geom j = 1 -> volume_centroid geom j = (0, 0).
Hypothesis Hlinear : linear_in_fluid geom dx u a g.
Hypothesis Hi : 0 < volume_fraction geom i.

Definition regular_branch : bool :=
  is_one (volume_fraction geom i) && is_one (volume_fraction geom (neighbor i 1)) && is_one (volume_fraction geom (neighbor i 0))
  && is_one (volume_fraction geom (neighbor i 3)) && is_one (volume_fraction geom (neighbor i 2)).

Lemma regular_branch_spec : regular_branch = true <-> all_regular geom i.
Proof.
  unfold regular_branch, all_regular, is_one. destruct i as [x y]. cbn [neighbor fst snd].
  destruct (Req_EM_T (volume_fraction geom (x, y)) 1); destruct (Req_EM_T (volume_fraction geom (x + 1, y)%Z) 1);
  destruct (Req_EM_T (volume_fraction geom (x - 1, y)%Z) 1); destruct (Req_EM_T (volume_fraction geom (x, y + 1)%Z) 1);
  destruct (Req_EM_T (volume_fraction geom (x, y - 1)%Z) 1); cbn [andb]; intuition discriminate.
Qed.

Lemma regular_exact : all_regular geom i -> CellGradient slope face geom u dx i = Some g.
Proof.
  intro A. unfold CellGradient. fold regular_branch. rewrite (proj2 regular_branch_spec A).
  destruct i as [x y]. destruct A as (A0 & A1 & A2 & A3 & A4). cbn [neighbor fst snd].
  assert (U : forall j, volume_fraction geom j = 1 -> u j = a + fst g * ((IZR (fst j) + 0 + 1 / 2) * fst dx) + snd g * ((IZR (snd j) + 0 + 1 / 2) * snd dx)).
  { intros j Hj. rewrite (Hlinear j) by lra. unfold centroid, position. rewrite (Hregular j Hj). cbn [fst snd]. reflexivity. }
  rewrite (U _ A0), (U _ A1), (U _ A2), (U _ A3), (U _ A4). cbn [fst snd].
  rewrite !minus_IZR, !plus_IZR.
  set (m := a + fst g * ((IZR x + 0 + 1 / 2) * fst dx) + snd g * ((IZR y + 0 + 1 / 2) * snd dx)).
  replace (a + fst g * ((IZR x - 1 + 0 + 1 / 2) * fst dx) + snd g * ((IZR y + 0 + 1 / 2) * snd dx)) with (m - fst g * fst dx) by (unfold m; ring).
  replace (a + fst g * ((IZR x + 1 + 0 + 1 / 2) * fst dx) + snd g * ((IZR y + 0 + 1 / 2) * snd dx)) with (m + fst g * fst dx) by (unfold m; ring).
  replace (a + fst g * ((IZR x + 0 + 1 / 2) * fst dx) + snd g * ((IZR y - 1 + 0 + 1 / 2) * snd dx)) with (m - snd g * snd dx) by (unfold m; ring).
  replace (a + fst g * ((IZR x + 0 + 1 / 2) * fst dx) + snd g * ((IZR y + 1 + 0 + 1 / 2) * snd dx)) with (m + snd g * snd dx) by (unfold m; ring).
  rewrite !Hslope by apply Hdx. destruct g; reflexivity.
Qed.

Lemma three_open_exact : comparable face geom i -> three_open face geom dx i -> CellGradient slope face geom u dx i = Some g.
Proof.
  intros C (open & Len & ND & Inc & Op & Fl & Sp). unfold CellGradient. fold regular_branch.
  destruct regular_branch eqn:RB. { rewrite <- (regular_exact (proj1 regular_branch_spec RB)). unfold CellGradient. fold regular_branch. rewrite RB. reflexivity. }
  destruct (Req_EM_T (volume_fraction geom i) 0) as [E | _]; [lra |].
  destruct (sorted_faces face geom i C) as (n0 & n1 & n2 & n3 & Es & P & B1 & B2 & B3). rewrite Es. cbn [nth].
  destruct (perm_lt _ _ _ _ P) as [(L0 & L1 & L2 & L3) _].
  assert (O : forall n, (n < 4)%nat -> (In (side face i n) open <-> 0 < beta face i n)) by (intros n Hn; apply (Op _ (side_in face i n Hn))).
  assert (Pos2 : 0 < beta face i n2).
  { destruct (Rlt_dec 0 (beta face i n2)) as [H | H]; [exact H | exfalso].
    assert (I : incl open [side face i n0; side face i n1]).
    { intros s Hs. destruct (side_inv face i s (Inc s Hs)) as (n & Hn & ->). apply (O n Hn) in Hs.
      destruct (perm_in _ _ _ _ n P Hn) as [-> | [-> | [-> | ->]]]; [left; reflexivity | right; left; reflexivity | contradiction | lra]. }
    pose proof (NoDup_incl_length ND I) as Lm. cbn [length] in Lm. lia. }
  assert (F : forall n, (n < 4)%nat -> 0 < beta face i n -> 0 < volume_fraction geom (neighbor i n)).
  { intros n Hn Hb. apply (Fl (side face i n)). apply O; assumption. }
  rewrite (proj2 (positive_spec (beta face i n2)) Pos2), (proj2 (positive_spec (beta face i n1))), (proj2 (positive_spec (beta face i n0))) by lra.
  cbn [negb andb]. destruct (positive (beta face i n3)) eqn:E3.
  - apply positive_spec in E3. apply (gradient_from_exact geom dx u a g); try assumption.
    + intros j [<- | [<- | [<- | [<- | []]]]]; apply F; (assumption || lra).
    + apply (spread_incl _ _ _ (map snd open)); [| exact Sp]. intros j Hj. apply in_map_iff in Hj as (s & <- & Hs).
      destruct (side_inv face i s (Inc s Hs)) as (n & Hn & ->). unfold side. cbn [snd].
      destruct (perm_in _ _ _ _ n P Hn) as [-> | [-> | [-> | ->]]]; cbn; auto.
  - apply positive_false in E3. apply (gradient_from_exact geom dx u a g); try assumption.
    + intros j [<- | [<- | [<- | []]]]; apply F; (assumption || lra).
    + apply (spread_incl _ _ _ (map snd open)); [| exact Sp]. intros j Hj. apply in_map_iff in Hj as (s & <- & Hs).
      destruct (side_inv face i s (Inc s Hs)) as (n & Hn & ->). unfold side. cbn [snd].
      destruct (perm_in _ _ _ _ n P Hn) as [-> | [-> | [-> | ->]]]; cbn; auto. exfalso. apply E3. apply (O n3 L3). exact Hs.
Qed.

Lemma corner_open_exact : comparable face geom i -> corner_open face geom dx i -> CellGradient slope face geom u dx i = Some g.
Proof.
  intros C (s & t & Is & It & Ds & Dt & Op & Fs & Ft & Fc & Sp). unfold CellGradient. fold regular_branch.
  destruct regular_branch eqn:RB. { rewrite <- (regular_exact (proj1 regular_branch_spec RB)). unfold CellGradient. fold regular_branch. rewrite RB. reflexivity. }
  destruct (Req_EM_T (volume_fraction geom i) 0) as [E | _]; [lra |].
  destruct (sorted_faces face geom i C) as (n0 & n1 & n2 & n3 & Es & P & B1 & B2 & B3). rewrite Es. cbn [nth].
  destruct (perm_lt _ _ _ _ P) as [(L0 & L1 & L2 & L3) ND].
  destruct (side_inv face i s Is) as (ns & Ls & ->). destruct (side_inv face i t It) as (nt & Lt & ->).
  unfold side in Ds, Dt, Fs, Ft, Fc, Sp. cbn [fst snd] in Ds, Dt, Fs, Ft, Fc, Sp.
  assert (O : forall n, (n < 4)%nat -> (0 < beta face i n <-> n = ns \/ n = nt)).
  { intros n Hn. pose proof (Op (side face i n) (side_in face i n Hn)) as H. split.
    - intro Hb. destruct (proj1 H Hb) as [E1 | E1]; apply side_inj in E1; auto.
    - intro Hb. apply (proj2 H). destruct Hb as [-> | ->]; auto. }
  assert (Ne : ns <> nt) by (intros ->; rewrite Ds in Dt; discriminate).
  assert (ND' : n0 <> n1 /\ n0 <> n2 /\ n1 <> n2 /\ n0 <> n3 /\ n1 <> n3).
  { inversion ND as [| ? ? N0 ND1]; subst. inversion ND1 as [| ? ? N1 ND2]; subst. cbn in N0, N1. repeat split; intro; subst; intuition. }
  destruct ND' as (Q01 & Q02 & Q12 & Q03 & Q13).
  assert (NP2 : ~ 0 < beta face i n2).
  { intro H2. assert (H0 : 0 < beta face i n0) by lra. assert (H1 : 0 < beta face i n1) by lra.
    apply (O n0 L0) in H0. apply (O n1 L1) in H1. apply (O n2 L2) in H2. destruct H0, H1, H2; subst; contradiction. }
  assert (Pos1 : 0 < beta face i n1).
  { destruct (Rlt_dec 0 (beta face i n1)) as [H | H]; [exact H | exfalso].
    assert (Hs : 0 < beta face i ns) by (apply (O ns Ls); auto). assert (Ht : 0 < beta face i nt) by (apply (O nt Lt); auto).
    destruct (perm_in _ _ _ _ ns P Ls) as [E1 | [E1 | [E1 | E1]]]; rewrite E1 in Hs; try lra.
    destruct (perm_in _ _ _ _ nt P Lt) as [E2 | [E2 | [E2 | E2]]]; rewrite E2 in Ht; try lra. congruence. }
  assert (Pos0 : 0 < beta face i n0) by lra.
  rewrite (proj2 (positive_false (beta face i n2)) NP2), (proj2 (positive_spec _) Pos0), (proj2 (positive_spec _) Pos1). cbn [negb andb].
  apply (O n0 L0) in Pos0. apply (O n1 L1) in Pos1.
  destruct Pos0 as [-> | ->], Pos1 as [-> | ->]; try contradiction; rewrite Ds, Dt; cbn [Nat.eqb negb];
    apply (gradient_from_exact geom dx u a g); try assumption.
  - intros j [<- | [<- | [<- | []]]]; assumption.
  - intros j [<- | [<- | [<- | []]]]; assumption.
  - eapply spread_incl; [| exact Sp]. clear. intros j Hj. cbn [In] in *. tauto.
Qed.

Lemma limit_exact : LimitCell geom u dx i g = Some g.
Proof.
  unfold LimitCell. rewrite (proj2 (positive_spec _) Hi).
  destruct (C100_unchanged (fun _ => g) u geom i dx) as (grad' & E & H).
  - intros j (_ & Hj & _). unfold between, linear_value. fold (centroid geom dx i) (centroid geom dx j).
    replace (u i + fst g * (fst (centroid geom dx j) - fst (centroid geom dx i)) + snd g * (snd (centroid geom dx j) - snd (centroid geom dx i))) with (u j)
      by (rewrite (Hlinear j Hj), (Hlinear i Hi); ring).
    split; [apply Rmin_r | apply Rmax_r].
  - rewrite E, H. reflexivity.
Qed.
End Cell.
