(** Proofs for C149. *)
From Coq Require Import List Reals Bool Lra Lia Psatz.
From Verif Require Import TubeModel TubeSpec.
Import ListNotations.
Local Open Scope R_scope.

Lemma vec_eq a b : vx a = vx b -> vy a = vy b -> vz a = vz b -> a = b.
Proof. destruct a, b; cbn; congruence. Qed.
Lemma dot_pos v : 0 <= vdot v v.
Proof. unfold vdot. nra. Qed.
Lemma dot_zero v : vdot v v = 0 -> v = mkVec 0 0 0.
Proof.
  unfold vdot. intros H. assert (0 <= vx v * vx v) by nra. assert (0 <= vy v * vy v) by nra. assert (0 <= vz v * vz v) by nra.
  apply vec_eq; cbn; nra.
Qed.
Lemma scale_dot k v : vdot (vscale k v) (vscale k v) = k * k * vdot v v.
Proof. unfold vdot, vscale. cbn. ring. Qed.

Lemma normalized_unit v : unit_of v (normalized v).
Proof.
  unfold normalized. destruct (Rlt_dec 0 (vdot v v)) as [H|H].
  - right. exists (/ sqrt (vdot v v)). assert (S : 0 < sqrt (vdot v v)) by (now apply sqrt_lt_R0). split; [now apply Rinv_0_lt_compat|].
    split; [reflexivity|]. rewrite scale_dot. rewrite <- (sqrt_sqrt (vdot v v)) at 3 by lra. field. lra.
  - left. pose proof (dot_pos v). assert (E : vdot v v = 0) by lra. split; [exact E|]. now apply dot_zero.
Qed.
Lemma unit_unique v u w : unit_of v u -> unit_of v w -> u = w.
Proof.
  intros [[H ->] | (k & Hk & -> & E)] [[H' ->] | (l & Hl & -> & E')]; [reflexivity| | |].
  - rewrite scale_dot, H in E'. lra.
  - rewrite scale_dot, H' in E. lra.
  - rewrite scale_dot in E, E'. f_equal. pose proof (dot_pos v).
    assert (D : (k - l) * ((k + l) * vdot v v) = 0) by (replace ((k - l) * ((k + l) * vdot v v)) with (k * k * vdot v v - l * l * vdot v v) by ring; lra).
    apply Rmult_integral in D. destruct D as [D|D]; [lra|]. apply Rmult_integral in D. destruct D as [D|D]; [lra|]. rewrite D in E. lra.
Qed.
Lemma unit_half v u : unit_of v u <-> unit_of (vscale (1 / 2) v) u.
Proof.
  split; (intros [[H ->] | (k & Hk & -> & E)]; [left; rewrite scale_dot in *; split; [lra|reflexivity]|right]).
  - exists (2 * k). split; [lra|]. split; [apply vec_eq; cbn; field|exact E].
  - exists (k / 2). split; [lra|]. split; [apply vec_eq; cbn; field|exact E].
Qed.
Lemma unit_norm v u : unit_of v u -> vdot u u = 0 \/ vdot u u = 1.
Proof. intros [[_ ->] | (k & _ & -> & E)]; [left; unfold vdot; cbn; ring|now right]. Qed.
Lemma unit_planar v u : unit_of v u -> vz v = 0 -> vz u = 0.
Proof. intros [[_ ->] | (k & _ & -> & E)] H; [reflexivity|]. cbn. rewrite H. ring. Qed.

Lemma heights_length pts : length (GetHeightsFromPoints pts) = (length pts - 1)%nat.
Proof. induction pts as [|p r IH]; cbn; [reflexivity|]. destruct r; [reflexivity|]. cbn [length] in *. rewrite IH. lia. Qed.
Lemma heights_nth pts : forall i h, nth_error (GetHeightsFromPoints pts) i = Some h <-> direction pts i h.
Proof.
  induction pts as [|p r IH]; intros i h.
  - split; [destruct i; discriminate|]. intros (a & b & E & _). destruct i; discriminate.
  - destruct r as [|q r].
    + split; [destruct i; discriminate|]. intros (a & b & _ & E & _). destruct i as [|[|i]]; discriminate.
    + change (GetHeightsFromPoints (p :: q :: r)) with (normalized (vsub q p) :: GetHeightsFromPoints (q :: r)).
      destruct i as [|i].
      * cbn [nth_error]. split.
        -- intros E. injection E as <-. exists p, q. repeat split. apply normalized_unit.
        -- intros (a & b & E1 & E2 & U). cbn in E1, E2. injection E1 as <-. injection E2 as <-. f_equal.
           eapply unit_unique; [apply normalized_unit|exact U].
      * cbn [nth_error]. rewrite IH. split; intros (a & b & E); exists a, b; exact E.
Qed.

Lemma inner_nth : forall hs cs n0 j, length hs = (length cs - 1)%nat ->
  nth_error (inner_planes n0 cs hs) j =
  match nth_error hs j, nth_error cs j with
  | Some h, Some c => Some (plane_of (normalized (vscale (1 / 2) (vadd match j with O => n0 | S k => nth k hs n0 end h))) c)
  | _, _ => None end.
Proof.
  induction hs as [|h hs IH]; intros [|c cs] n0 j L; cbn in L; try discriminate; try lia.
  - destruct j; reflexivity.
  - destruct j; reflexivity.
  - destruct j as [|j]; [reflexivity|]. cbn [inner_planes nth_error]. rewrite IH by lia.
    destruct (nth_error hs j) as [h'|] eqn:E; [|reflexivity]. destruct (nth_error cs j) as [c'|]; [|reflexivity].
    f_equal. f_equal. f_equal. f_equal. f_equal. destruct j as [|j]; [reflexivity|]. cbn [nth].
    apply nth_indep. assert (H : nth_error hs (S j) <> None) by congruence. apply nth_error_Some in H. lia.
Qed.
Lemma inner_length : forall hs cs n0, length hs = (length cs - 1)%nat -> length (inner_planes n0 cs hs) = length hs.
Proof. induction hs as [|h hs IH]; intros [|c cs] n0 L; cbn in *; try lia. rewrite IH by lia. reflexivity. Qed.

Lemma last_nth (l : list vec) d : l <> [] -> nth_error l (length l - 1) = Some (last l d).
Proof.
  induction l as [|a l IH]; intros H; [contradiction|]. destruct l as [|b l]; [reflexivity|].
  replace (length (a :: b :: l) - 1)%nat with (S (length (b :: l) - 1)) by (cbn; lia). cbn [nth_error].
  change (last (a :: b :: l) d) with (last (b :: l) d). apply IH. discriminate.
Qed.

Lemma planes_nth pts i p : (2 <= length pts)%nat ->
  nth_error (GetPlanes pts (GetHeightsFromPoints pts)) i = Some p <->
  exists c n, nth_error pts i = Some c /\ cut pts i n /\ p = plane_of n c.
Proof.
  intros L. destruct pts as [|c0 [|c1 r]]; cbn in L; try lia.
  set (pts := c0 :: c1 :: r).
  assert (EP : GetPlanes pts (GetHeightsFromPoints pts) =
    plane_of up c0 :: inner_planes up (c1 :: r) (GetHeightsFromPoints (c1 :: r)) ++ [plane_of down (last pts c0)]) by reflexivity.
  assert (HL : length (GetHeightsFromPoints (c1 :: r)) = (length (c1 :: r) - 1)%nat) by apply heights_length.
  assert (Hn : forall j h, nth_error (GetHeightsFromPoints (c1 :: r)) j = Some h <-> direction pts (S j) h).
  { intros j h. rewrite <- (heights_nth pts). reflexivity. }
  assert (IL := inner_length _ _ up HL). cbn [length] in HL, IL.
  rewrite EP. destruct i as [|i]; cbn [nth_error].
  - split.
    + intros E. injection E as <-. exists c0, up. repeat split. constructor.
    + intros (c & n & E & Hc & ->). injection E as <-. inversion Hc; subst. reflexivity.
  - destruct (Nat.lt_trichotomy i (length r)) as [Hi|[Hi|Hi]].
    + rewrite nth_error_app1 by lia. rewrite inner_nth by apply heights_length.
      destruct (nth_error (GetHeightsFromPoints (c1 :: r)) i) as [h|] eqn:Eh; [|apply nth_error_None in Eh; lia].
      destruct (nth_error (c1 :: r) i) as [c|] eqn:Ec; [|apply nth_error_None in Ec; cbn in Ec; lia].
      assert (Ec' : nth_error pts (S i) = Some c) by exact Ec.
      assert (LP : length pts = S (S (length r))) by reflexivity.
      destruct i as [|i].
      * assert (U : cut pts 1 (normalized (vscale (1 / 2) (vadd up h)))).
        { apply cut_second with h; [lia|now apply Hn|]. apply unit_half. apply normalized_unit. }
        split.
        -- intros E. injection E as <-. exists c. eexists. split; [exact Ec'|]. split; [exact U|reflexivity].
        -- intros (c' & n & E & Hc & ->). pose proof (eq_trans (eq_sym Ec') E) as E'. injection E' as <-. f_equal. f_equal.
           inversion Hc as [|j Hj|h' n' H1 H2 H3|]; subst; [exfalso; lia|]. assert (h' = h) by (apply Hn in H2; congruence). subst h'.
           eapply unit_unique; [apply normalized_unit|]. now apply unit_half in H3.
      * assert (exists g, nth_error (GetHeightsFromPoints (c1 :: r)) i = Some g) as [g Eg].
        { destruct (nth_error (GetHeightsFromPoints (c1 :: r)) i) as [g|] eqn:Eg; [eauto|]. apply nth_error_None in Eg. lia. }
        rewrite (nth_error_nth _ _ up Eg).
        assert (U : cut pts (S (S i)) (normalized (vscale (1 / 2) (vadd g h)))).
        { apply cut_inner with g h; [lia|now apply Hn|now apply Hn|]. apply unit_half. apply normalized_unit. }
        split.
        -- intros E. injection E as <-. exists c. eexists. split; [exact Ec'|]. split; [exact U|reflexivity].
        -- intros (c' & n & E & Hc & ->). pose proof (eq_trans (eq_sym Ec') E) as E'. injection E' as <-. f_equal. f_equal.
           inversion Hc as [|j Hj| |j g' h' n' H1 H2 H3 H4]; subst; [exfalso; lia|].
           assert (h' = h) by (apply Hn in H3; congruence). assert (g' = g) by (apply Hn in H2; congruence). subst h' g'.
           eapply unit_unique; [apply normalized_unit|]. now apply unit_half in H4.
    + rewrite nth_error_app2 by lia. rewrite IL, HL. replace (i - (S (length r) - 1))%nat with 0%nat by lia. cbn [nth_error].
      assert (El : nth_error pts (S i) = Some (last pts c0)).
      { replace (S i) with (length pts - 1)%nat by (unfold pts; cbn [length]; lia). apply last_nth. discriminate. }
      split.
      * intros E. injection E as <-. exists (last pts c0), down. split; [exact El|]. split; [|reflexivity]. apply cut_last. unfold pts; cbn [length]; lia.
      * intros (c & n & E & Hc & ->). pose proof (eq_trans (eq_sym El) E) as E'. injection E' as <-. assert (LP : length pts = S (S (length r))) by reflexivity.
        inversion Hc; subst; [reflexivity|exfalso; lia|exfalso; lia].
    + split.
      * intros E. assert (H : nth_error (inner_planes up (c1 :: r) (GetHeightsFromPoints (c1 :: r)) ++ [plane_of down (last pts c0)]) i <> None) by (rewrite E; discriminate).
        apply nth_error_Some in H. rewrite app_length, IL, HL in H. cbn in H. lia.
      * intros (c & n & E & _). assert (H : nth_error pts (S i) <> None) by (intros C; pose proof (eq_trans (eq_sym C) E) as K; discriminate K). apply nth_error_Some in H. unfold pts in H. cbn in H. lia.
Qed.

Definition excess (radius : R) (x c h : vec) (lo hi : plane) : R :=
  Rmax (Rmax (pd lo - (pn0 lo * vx x + pn1 lo * vy x)) ((pn0 hi * vx x + pn1 hi * vy x) - pd hi)) (ComputeDistance x c h radius).
Lemma distances_In radius x : forall hs cs ps d, In d (distances radius x hs cs ps) <->
  exists i h c lo hi, nth_error hs i = Some h /\ nth_error cs i = Some c /\ nth_error ps i = Some lo /\ nth_error ps (S i) = Some hi /\
    d = excess radius x c h lo hi.
Proof.
  induction hs as [|h hs IH]; intros cs ps d.
  - split; [intros []|]. intros (i & h & c & lo & hi & E & _). destruct i; discriminate.
  - destruct cs as [|c cs]; [split; [intros []|intros (i & h' & c & lo & hi & _ & E & _); destruct i; discriminate]|].
    destruct ps as [|lo ps]; [split; [intros []|intros (i & h' & c' & lo & hi & _ & _ & E & _); destruct i; discriminate]|].
    destruct ps as [|hi ps]; [split; [intros []|intros (i & h' & c' & lo' & hi & _ & _ & _ & E & _); destruct i as [|[|i]]; discriminate]|].
    change (distances radius x (h :: hs) (c :: cs) (lo :: hi :: ps)) with (excess radius x c h lo hi :: distances radius x hs cs (hi :: ps)).
    cbn [In]. rewrite IH. split.
    + intros [<- | (i & E)]; [exists 0%nat, h, c, lo, hi; repeat split|exists (S i); exact E].
    + intros ([|i] & h' & c' & lo' & hi' & E1 & E2 & E3 & E4 & ->).
      * left. cbn in E1, E2, E3, E4. congruence.
      * right. exists i, h', c', lo', hi'. repeat split; assumption.
Qed.
Lemma fold_min : forall l d, (fold_left (fun m y => if Rlt_dec y m then y else m) l d <= 0) <-> exists y, In y (d :: l) /\ y <= 0.
Proof.
  induction l as [|a l IH]; intros d; cbn [fold_left].
  - split; [intros H; exists d; split; [now left|exact H]|intros (y & [<-|[]] & H); exact H].
  - rewrite IH. split.
    + intros (y & Hy & H). exists y. split; [|exact H]. destruct Hy as [<-|Hy]; [destruct (Rlt_dec a d); cbn; auto|cbn; auto].
    + intros (y & Hy & H). destruct (Rlt_dec a d) as [C|C]; cbn in Hy |- *.
      * destruct Hy as [<-|[<-|Hy]]; [exists a; split; [auto|lra]|exists a; auto|exists y; auto].
      * destruct Hy as [<-|[<-|Hy]]; [exists d; auto|exists d; split; [auto|lra]|exists y; auto].
Qed.

(** The projection is the nearest point of the axis *)
Lemma distance_axis x c h radius : vdot h h = 0 \/ vdot h h = 1 ->
  ComputeDistance x c h radius <= 0 <-> exists t, within radius x (vadd c (vscale t h)).
Proof.
  intros Hh. unfold ComputeDistance, within. cbv zeta. set (l := vdot h (vsub x c)). split.
  - intros H. exists l. lra.
  - intros (t & H). enough (sqrt (vdot (vsub x (vadd c (vscale l h))) (vsub x (vadd c (vscale l h)))) <= sqrt (vdot (vsub x (vadd c (vscale t h))) (vsub x (vadd c (vscale t h))))) by lra.
    apply sqrt_le_1_alt. destruct Hh as [Hh|Hh].
    + apply dot_zero in Hh. rewrite Hh. unfold vdot, vsub, vadd, vscale. cbn. right. ring.
    + assert (E : vdot (vsub x (vadd c (vscale t h))) (vsub x (vadd c (vscale t h))) =
        vdot (vsub x (vadd c (vscale l h))) (vsub x (vadd c (vscale l h))) + (t - l) * (t - l) * vdot h h + 2 * (t - l) * (l * vdot h h - vdot h (vsub x c))).
      { unfold vdot, vsub, vadd, vscale. cbn. ring. }
      rewrite E, Hh. change (vdot h (vsub x c)) with l. pose proof (Rle_0_sqr (t - l)) as Q. unfold Rsqr in Q.
      replace (2 * (t - l) * (l * 1 - l)) with 0 by ring. lra.
Qed.

Lemma Rmax_le0 a b : Rmax a b <= 0 <-> a <= 0 /\ b <= 0.
Proof. unfold Rmax. destruct (Rle_dec a b); lra. Qed.

Lemma nth_planar pts i c : Forall (fun c => vz c = 0) pts -> nth_error pts i = Some c -> vz c = 0.
Proof. intros HF E. apply nth_error_In in E. rewrite Forall_forall in HF. now apply HF. Qed.
Lemma direction_planar pts i h : Forall (fun c => vz c = 0) pts -> direction pts i h -> vz h = 0.
Proof.
  intros HF (a & b & E1 & E2 & U). apply (unit_planar _ _ U). cbn. rewrite (nth_planar _ _ _ HF E1), (nth_planar _ _ _ HF E2). ring.
Qed.
Lemma cut_planar pts i n : Forall (fun c => vz c = 0) pts -> cut pts i n -> vz n = 0.
Proof.
  intros HF [|j Hj|h m H1 H2 H3|j g h m H1 H2 H3 H4]; try reflexivity.
  - apply (unit_planar _ _ H3). cbn. rewrite (direction_planar _ _ _ HF H2). ring.
  - apply (unit_planar _ _ H4). cbn. rewrite (direction_planar _ _ _ HF H2), (direction_planar _ _ _ HF H3). ring.
Qed.

Lemma tube_inside pts radius x : (2 <= length pts)%nat -> Forall (fun c => vz c = 0) pts ->
  exists v, ExpandTube pts radius x = Some v /\ (0 <= v <-> exists i, in_segment pts radius i x).
Proof.
  intros L HF. unfold ExpandTube. cbv zeta.
  set (D := distances radius x (GetHeightsFromPoints pts) pts (GetPlanes pts (GetHeightsFromPoints pts))).
  assert (HD : forall d, In d D <-> exists i a b h n m, nth_error pts i = Some a /\ nth_error pts (S i) = Some b /\ direction pts i h /\
    cut pts i n /\ cut pts (S i) m /\ d = excess radius x a h (plane_of n a) (plane_of m b)).
  { intros d. unfold D. rewrite distances_In. split.
    - intros (i & h & c & lo & hi & E1 & E2 & E3 & E4 & ->). apply heights_nth in E1. apply planes_nth in E3; [|exact L]. apply planes_nth in E4; [|exact L].
      destruct E3 as (c1 & n & E3 & Hn & ->). destruct E4 as (c2 & m & E4 & Hm & ->). assert (c1 = c) by congruence. subst c1.
      exists i, c, c2, h, n, m. repeat (split; [assumption|]). reflexivity.
    - intros (i & a & b & h & n & m & E1 & E2 & E3 & E4 & E5 & ->). exists i, h, a, (plane_of n a), (plane_of m b).
      split; [now apply heights_nth|]. split; [exact E1|]. split; [apply planes_nth; eauto|]. split; [apply planes_nth; eauto|reflexivity]. }
  assert (Hin : (exists d, In d D /\ d <= 0) <-> exists i, in_segment pts radius i x).
  { assert (K : forall i a b h n m, nth_error pts i = Some a -> nth_error pts (S i) = Some b -> direction pts i h -> cut pts i n -> cut pts (S i) m ->
      excess radius x a h (plane_of n a) (plane_of m b) <= 0 <-> 0 <= vdot n (vsub x a) /\ vdot m (vsub x b) <= 0 /\ exists t, within radius x (vadd a (vscale t h))).
    { intros i a b h n m E1 E2 E3 E4 E5. unfold excess. rewrite !Rmax_le0. cbn [plane_of pn0 pn1 pd].
      rewrite distance_axis by (destruct E3 as (? & ? & _ & _ & U); exact (unit_norm _ _ U)).
      pose proof (cut_planar _ _ _ HF E4) as Z1. pose proof (cut_planar _ _ _ HF E5) as Z2. unfold vdot, vsub. cbn. rewrite Z1, Z2.
      split; [intros [[A B] C]; repeat split; [lra|lra|exact C]|intros (A & B & C); repeat split; [lra|lra|exact C]]. }
    split.
    - intros (d & Hd & H). apply HD in Hd. destruct Hd as (i & a & b & h & n & m & E1 & E2 & E3 & E4 & E5 & ->). exists i, a, b, h, n, m.
      apply (K i) in H; try assumption. destruct H as (A & B & C). repeat (split; [assumption|]). exact C.
    - intros (i & a & b & h & n & m & E1 & E2 & E3 & E4 & E5 & A & B & C). eexists. split; [apply HD; exists i, a, b, h, n, m; repeat (split; [eassumption|]); reflexivity|].
      apply (K i); auto. }
  assert (NE : D <> []).
  { unfold D. destruct pts as [|c0 [|c1 r]]; cbn in L; try lia. unfold GetPlanes. cbn [GetHeightsFromPoints tl].
    match goal with |- context [?l ++ ?y] => assert (N : l ++ y <> []) by (destruct l; discriminate); destruct (l ++ y); [contradiction|] end.
    discriminate. }
  destruct D as [|d r]; [contradiction|]. eexists. split; [reflexivity|]. rewrite <- Hin, <- fold_min. lra.
Qed.
