(** Lemmas for the transfer between grids and for the walls. *)
From Coq Require Import List Reals ZArith Lra Lia Bool FunctionalExtensionality.
From Verif Require Import LowMachModel LowMachSpec LowMachProofs LowMachProofs2 LowMachProofs3 MultigridModel MultigridSpec MultigridProofs.
Import ListNotations.
Local Open Scope R_scope.

(** * Transfer *)
Lemma adjoint (n m : nat) (fine c : field) : periodic (2 * n) (2 * m) fine -> periodic n m c ->
  4 * total n m (fun i j => restriction no_mask fine i j * c i j) = total (2 * n) (2 * m) (fun i j => fine i j * bilinear c i j).
Proof.
  intros Hf Hc. rewrite total_double, <- total_scal.
  set (ox := fun i j => fine (2 * i + 1)%Z (2 * j)%Z : R). set (oy := fun i j => fine (2 * i)%Z (2 * j + 1)%Z : R). set (oo := fun i j => fine (2 * i + 1)%Z (2 * j + 1)%Z : R).
  assert (Px : periodic n m ox).
  { intros i j. unfold ox. replace (2 * (i + Z.of_nat n) + 1)%Z with (2 * i + 1 + Z.of_nat (2 * n))%Z by lia. replace (2 * (j + Z.of_nat m))%Z with (2 * j + Z.of_nat (2 * m))%Z by lia. split; apply Hf. }
  assert (Py : periodic n m oy).
  { intros i j. unfold oy. replace (2 * (i + Z.of_nat n))%Z with (2 * i + Z.of_nat (2 * n))%Z by lia. replace (2 * (j + Z.of_nat m) + 1)%Z with (2 * j + 1 + Z.of_nat (2 * m))%Z by lia. split; apply Hf. }
  assert (Po : periodic n m oo).
  { intros i j. unfold oo. replace (2 * (i + Z.of_nat n) + 1)%Z with (2 * i + 1 + Z.of_nat (2 * n))%Z by lia. replace (2 * (j + Z.of_nat m) + 1)%Z with (2 * j + 1 + Z.of_nat (2 * m))%Z by lia. split; apply Hf. }
  match goal with |- total n m ?g = total n m ?h => set (G := g); set (H := h) end.
  assert (E : total n m (fun i j => G i j + -1 * H i j) = 0); [|rewrite total_lin in E; lra].
  rewrite (total_ext n m _ (fun i j =>
    1 / 4 * (oo (i - 1)%Z (j - 1)%Z * c i j - oo i j * c (i + 1)%Z (j + 1)%Z)
    + (1 / 2 * (oy i (j - 1)%Z * c i j - oy i j * c i (j + 1)%Z)
    + (1 / 4 * (oo i (j - 1)%Z * c i j - oo i j * c i (j + 1)%Z)
    + (1 / 2 * (ox (i - 1)%Z j * c i j - ox i j * c (i + 1)%Z j)
    + 1 / 4 * (oo (i - 1)%Z j * c i j - oo i j * c (i + 1)%Z j)))))).
  - rewrite !total_plus.
    pose proof (shift_cancel2 n m oo c true true (1 / 4) Po Hc) as E1. pose proof (shift_cancel2 n m oy c false true (1 / 2) Py Hc) as E2.
    pose proof (shift_cancel2 n m oo c false true (1 / 4) Po Hc) as E3. pose proof (shift_cancel2 n m ox c true false (1 / 2) Px Hc) as E4.
    pose proof (shift_cancel2 n m oo c true false (1 / 4) Po Hc) as E5. cbv iota in *. lra.
  - intros i j. unfold G, H, restriction, no_mask, bilinear. rewrite !half_even, !half_odd, !half_next.
    replace (i * 2)%Z with (2 * i)%Z by lia. replace (j * 2)%Z with (2 * j)%Z by lia.
    replace (2 * i - 1)%Z with (2 * (i - 1) + 1)%Z by lia. replace (2 * j - 1)%Z with (2 * (j - 1) + 1)%Z by lia.
    unfold ox, oy, oo. field.
Qed.

Lemma convex2 (w1 w2 a b lo hi : R) : 0 < w1 -> 0 < w2 -> lo <= a <= hi -> lo <= b <= hi -> lo <= (w1 * a + w2 * b) / (w1 + w2) <= hi.
Proof.
  intros H1 H2 Ha Hb. assert (D : 0 < w1 + w2) by lra. 
  assert (w1 * lo <= w1 * a <= w1 * hi) by (split; apply Rmult_le_compat_l; lra). assert (w2 * lo <= w2 * b <= w2 * hi) by (split; apply Rmult_le_compat_l; lra).
  split; apply Rmult_le_reg_r with (w1 + w2); try exact D; unfold Rdiv; rewrite Rmult_assoc, Rinv_l, Rmult_1_r by lra; lra.
Qed.
Lemma convex4 (w1 w2 w3 w4 a b c d lo hi : R) : 0 < w1 -> 0 < w2 -> 0 < w3 -> 0 < w4 -> lo <= a <= hi -> lo <= b <= hi -> lo <= c <= hi -> lo <= d <= hi ->
  lo <= (w1 * a + w2 * b + w3 * c + w4 * d) / (w1 + w2 + w3 + w4) <= hi.
Proof.
  intros H1 H2 H3 H4 Ha Hb Hc Hd. assert (D : 0 < w1 + w2 + w3 + w4) by lra.
  assert (w1 * lo <= w1 * a <= w1 * hi) by (split; apply Rmult_le_compat_l; lra). assert (w2 * lo <= w2 * b <= w2 * hi) by (split; apply Rmult_le_compat_l; lra).
  assert (w3 * lo <= w3 * c <= w3 * hi) by (split; apply Rmult_le_compat_l; lra). assert (w4 * lo <= w4 * d <= w4 * hi) by (split; apply Rmult_le_compat_l; lra).
  split; apply Rmult_le_reg_r with (w1 + w2 + w3 + w4); try exact D; unfold Rdiv; rewrite Rmult_assoc, Rinv_l, Rmult_1_r by lra; lra.
Qed.

(** The four cases of the interpolation *)
Lemma interp_cases (msk : mask) (sx sy c fine : field) (k l : Z) :
  (msk (2 * k)%Z (2 * l)%Z = false -> interpadd msk sx sy c fine (2 * k)%Z (2 * l)%Z = fine (2 * k)%Z (2 * l)%Z + c k l) /\
  (msk (2 * k + 1)%Z (2 * l)%Z = false -> interpadd msk sx sy c fine (2 * k + 1)%Z (2 * l)%Z = fine (2 * k + 1)%Z (2 * l)%Z + interp_line_x c sx (2 * k + 1) (2 * l) k l) /\
  (msk (2 * k)%Z (2 * l + 1)%Z = false -> interpadd msk sx sy c fine (2 * k)%Z (2 * l + 1)%Z = fine (2 * k)%Z (2 * l + 1)%Z + interp_line_y c sy (2 * k) (2 * l + 1) k l) /\
  (msk (2 * k + 1)%Z (2 * l + 1)%Z = false -> interpadd msk sx sy c fine (2 * k + 1)%Z (2 * l + 1)%Z = fine (2 * k + 1)%Z (2 * l + 1)%Z + interp_face_xy c sx sy (2 * k + 1) (2 * l + 1) k l).
Proof.
  unfold interpadd. rewrite !half_even, !half_odd. repeat split; intros ->; repeat match goal with |- context [Z.eqb ?a ?b] => destruct (Z.eqb_spec a b); try (exfalso; lia); cbn [andb negb] end; reflexivity.
Qed.

Lemma line_x_bounds (c s : field) (i j ic jc : Z) (lo hi : R) : (forall i j, 0 < s i j) -> lo <= c ic jc <= hi -> lo <= c (ic + 1)%Z jc <= hi -> lo <= interp_line_x c s i j ic jc <= hi.
Proof. intros Hs H1 H2. unfold interp_line_x. apply convex2; try assumption; apply Rplus_lt_0_compat; apply Hs. Qed.
Lemma line_y_bounds (c s : field) (i j ic jc : Z) (lo hi : R) : (forall i j, 0 < s i j) -> lo <= c ic jc <= hi -> lo <= c ic (jc + 1)%Z <= hi -> lo <= interp_line_y c s i j ic jc <= hi.
Proof. intros Hs H1 H2. unfold interp_line_y. apply convex2; try assumption; apply Rplus_lt_0_compat; apply Hs. Qed.
Lemma face_bounds (c sx sy : field) (i j ic jc : Z) (lo hi : R) : (forall i j, 0 < sx i j) -> (forall i j, 0 < sy i j) ->
  lo <= c ic jc <= hi -> lo <= c (ic + 1)%Z jc <= hi -> lo <= c ic (jc + 1)%Z <= hi -> lo <= c (ic + 1)%Z (jc + 1)%Z <= hi -> lo <= interp_face_xy c sx sy i j ic jc <= hi.
Proof.
  intros Hx Hy H1 H2 H3 H4. unfold interp_face_xy. apply convex4; try (apply Rplus_lt_0_compat; auto); [apply line_y_bounds|apply line_y_bounds|apply line_x_bounds|apply line_x_bounds]; assumption.
Qed.

(** * Walls *)
Lemma gdomain_mirror (domain : box) (offset : Z) (bflo bfhi : bool -> bool) (i j : Z) : contains (gdomain domain bflo bfhi) i j = true ->
  mirror (blo domain true) (bhi domain true) offset (bflo true) (bfhi true) i = i /\ mirror (blo domain false) (bhi domain false) offset (bflo false) (bfhi false) j = j.
Proof.
  unfold contains, gdomain, mirror. cbn [blo bhi]. rewrite !andb_true_iff, !Z.leb_le. intros (((H1 & H2) & H3) & H4).
  destruct (bflo true), (bfhi true), (bflo false), (bfhi false); cbn [andb];
    split; repeat match goal with |- context [Z.ltb ?a ?b] => destruct (Z.ltb_spec a b); try (exfalso; lia) end; reflexivity.
Qed.

Lemma pair_dec (u v : Z * Z) : {u = v} + {u <> v}.
Proof. decide equality; apply Z.eq_dec. Qed.
Section Fill.
Context (domain : box) (offset : Z) (bflo bfhi : bool -> bool) (Ho : (0 <= offset <= 1)%Z) (Hd : forall d, (blo domain d + offset <= bhi domain d)%Z).
Let g := gdomain domain bflo bfhi.
Let mx := mirror (blo domain true) (bhi domain true) offset (bflo true) (bfhi true).
Let my := mirror (blo domain false) (bhi domain false) offset (bflo false) (bfhi false).

Lemma bc_value_spec (a : field) (i j : Z) : (blo domain true - 1 <= i <= bhi domain true + 1)%Z -> (blo domain false - 1 <= j <= bhi domain false + 1)%Z ->
  contains g i j = false -> bc_value domain offset bflo bfhi a i j = a (mx i) (my j) /\ contains g (mx i) (my j) = true.
Proof.
  intros Hi Hj. pose proof (Hd true) as Dx. pose proof (Hd false) as Dy.
  unfold g, mx, my, contains, gdomain, mirror, bc_value. cbn [blo bhi]. cbv zeta.
  set (lx := blo domain true) in *. set (ux := bhi domain true) in *. set (ly := blo domain false) in *. set (uy := bhi domain false) in *. clearbody lx ux ly uy.
  assert (Cx : (i = lx - 1 \/ (lx <= i <= ux) \/ i = ux + 1)%Z) by lia. assert (Cy : (j = ly - 1 \/ (ly <= j <= uy) \/ j = uy + 1)%Z) by lia.
  destruct (bflo true), (bfhi true), (bflo false), (bfhi false); cbn [andb orb];
    (destruct Cx as [Ex | [Ex | Ex]]; destruct Cy as [Ey | [Ey | Ey]]);
    repeat match goal with
    | |- context [Z.eqb ?a ?b] => first [rewrite (proj2 (Z.eqb_eq a b)) by lia | rewrite (proj2 (Z.eqb_neq a b)) by lia]
    | |- context [Z.ltb ?a ?b] => first [rewrite (proj2 (Z.ltb_lt a b)) by lia | rewrite (proj2 (Z.ltb_ge a b)) by lia]
    | |- context [Z.leb ?a ?b] => first [rewrite (proj2 (Z.leb_le a b)) by lia | rewrite (proj2 (Z.leb_gt a b)) by lia]
    end; cbn [andb orb]; intros H; try discriminate; (split; [f_equal; lia|reflexivity]).
Qed.

Let step (a : field) (p : Z * Z) : field := if contains g (fst p) (snd p) then a else upd a (fst p) (snd p) (bc_value domain offset bflo bfhi a (fst p) (snd p)).

Lemma fill_invariant (a0 : field) (points : list (Z * Z)) : forall (done : list (Z * Z)) (a : field),
  (forall i j, In (i, j) points -> (blo domain true - 1 <= i <= bhi domain true + 1)%Z /\ (blo domain false - 1 <= j <= bhi domain false + 1)%Z) ->
  (forall i j, (In (i, j) done -> a i j = a0 (mx i) (my j)) /\ (~ In (i, j) done -> a i j = a0 i j)) ->
  forall i j, (In (i, j) (done ++ points) -> fold_left step points a i j = a0 (mx i) (my j)) /\ (~ In (i, j) (done ++ points) -> fold_left step points a i j = a0 i j).
Proof.
  induction points as [|[x y] r IH]; intros done a Hr Ha i j.
  - rewrite app_nil_r. apply Ha.
  - cbn [fold_left]. replace (done ++ (x, y) :: r) with ((done ++ [(x, y)]) ++ r) by (rewrite <- app_assoc; reflexivity). apply IH; [intros p q Hp; apply Hr; right; exact Hp|]. clear i j.
    destruct (Hr x y (or_introl eq_refl)) as [Rx Ry].
    assert (Inside : forall p q, contains g p q = true -> a p q = a0 p q).
    { intros p q Hp. destruct (gdomain_mirror domain offset bflo bfhi p q Hp) as [E1 E2]. fold mx in E1. fold my in E2.
      destruct (in_dec pair_dec (p, q) done) as [Hi|Hi].
      - rewrite (proj1 (Ha p q) Hi), E1, E2. reflexivity.
      - apply (proj2 (Ha p q) Hi). }
    unfold step. cbn [fst snd]. destruct (contains g x y) eqn:C.
    + intros p q. split.
      * intros Hi. apply in_app_or in Hi as [Hi | [E | []]]; [apply (proj1 (Ha p q) Hi)|]. inversion E; subst p q.
        destruct (gdomain_mirror domain offset bflo bfhi x y C) as [E1 E2]. fold mx in E1. fold my in E2. rewrite E1, E2. apply Inside, C.
      * intros Hn. apply (proj2 (Ha p q)). intros Hi. apply Hn, in_or_app. left. exact Hi.
    + destruct (bc_value_spec a x y Rx Ry C) as [-> C2]. rewrite (Inside _ _ C2). intros p q. split.
      * intros Hi. destruct (Z.eq_dec p x) as [-> |Np]; [destruct (Z.eq_dec q y) as [-> |Nq]; [apply upd_same|]|];
          (rewrite upd_other by congruence); (apply in_app_or in Hi as [Hi | [E | []]]; [apply (proj1 (Ha _ _) Hi)|congruence]).
      * intros Hn. assert (N : (p, q) <> (x, y)) by (intros E; apply Hn, in_or_app; right; left; congruence). rewrite upd_other by exact N.
        apply (proj2 (Ha p q)). intros Hi. apply Hn, in_or_app. left. exact Hi.
Qed.
End Fill.

Lemma scale_spec (s : R) (bx nddom : box) (wlo whi : bool -> bool) (rhs : field) (i j : Z) :
  (forall d, (blo nddom d <= blo bx d)%Z /\ (blo bx d <= bhi bx d)%Z /\ (bhi bx d <= bhi nddom d)%Z) ->
  scale_neumann s bx nddom wlo whi rhs i j = if contains bx i j then rhs i j * wall_factor s nddom wlo whi i j else rhs i j.
Proof.
  intros H. pose proof (H true) as (X1 & X0 & X2). pose proof (H false) as (Y1 & Y0 & Y2).
  unfold scale_neumann, scale_side, bdryLo, bdryHi, wall_factor, contains. cbn [blo bhi Bool.eqb].
  set (lx := blo nddom true) in *. set (ux := bhi nddom true) in *. set (ly := blo nddom false) in *. set (uy := bhi nddom false) in *.
  set (a := blo bx true) in *. set (b := bhi bx true) in *. set (c := blo bx false) in *. set (e := bhi bx false) in *. clearbody lx ux ly uy a b c e.
  destruct (wlo true), (whi true), (wlo false), (whi false); cbn [andb];
    destruct (Z.leb_spec a i), (Z.leb_spec i b), (Z.leb_spec c j), (Z.leb_spec j e); cbn [andb]; rewrite ?andb_false_r; cbn [andb];
    repeat match goal with
    | |- context [Z.eqb ?u ?v] => destruct (Z.eqb_spec u v); cbn [andb]
    | |- context [Z.leb ?u ?v] => destruct (Z.leb_spec u v); cbn [andb]
    end; try (exfalso; lia); try reflexivity; ring.
Qed.

Lemma sum1_telescope (n : nat) (g : Z -> R) : sum1 n (fun i => g i + -1 * g (i - 1)%Z) = g (Z.of_nat n - 1)%Z - g (-1)%Z.
Proof. rewrite sum1_lin. pose proof (sum1_pred n g). lra. Qed.

Lemma sum1_ext_in (n : nat) (g h : Z -> R) : (forall i, (0 <= i < Z.of_nat n)%Z -> g i = h i) -> sum1 n g = sum1 n h.
Proof. induction n as [|n IH]; intros H; [reflexivity|]. cbn [sum1]. rewrite IH by (intros i Hi; apply H; lia). rewrite (H (Z.of_nat n)) by lia. reflexivity. Qed.
Lemma total_ext_in (n m : nat) (g h : field) : (forall i j, (0 <= i < Z.of_nat n)%Z -> (0 <= j < Z.of_nat m)%Z -> g i j = h i j) -> total n m g = total n m h.
Proof. intros H. unfold total. apply sum1_ext_in. intros i Hi. apply sum1_ext_in. intros j Hj. apply H; assumption. Qed.
