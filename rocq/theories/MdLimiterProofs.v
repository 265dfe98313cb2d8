(** Proofs about the optimisation solver (C99). *)
From Coq Require Import List Reals ZArith Bool Lra Lia Psatz.
From Verif Require Import MdLimiterModel MdLimiterSpec.
Import ListNotations.
Local Open Scope R_scope.

Lemma vdot_vadd : forall a x y, vdot a (vadd x y) = vdot a x + vdot a y.
Proof. intros [a1 a2] [x1 x2] [y1 y2]. unfold vdot, vadd. cbn [fst snd]. ring. Qed.

Lemma vdot_vmul : forall a k x, vdot a (vmul k x) = k * vdot a x.
Proof. intros [a1 a2] k [x1 x2]. unfold vdot, vmul. cbn [fst snd]. ring. Qed.

Lemma solve_spec : forall a b r, determinant a b <> 0 -> vdot a (solve a b r) = fst r /\ vdot b (solve a b r) = snd r.
Proof.
  intros [a1 a2] [b1 b2] [r1 r2] H. unfold solve, vdot, determinant in *. cbn [fst snd] in *.
  split; field; exact H.
Qed.

Lemma solve_transposed_spec : forall a b c, determinant a b <> 0 ->
  forall v, vdot c v = fst (solve_transposed a b c) * vdot a v + snd (solve_transposed a b c) * vdot b v.
Proof.
  intros [a1 a2] [b1 b2] [c1 c2] H [v1 v2]. unfold solve_transposed, solve, vdot, determinant in *. cbn [fst snd] in *.
  field. intro E. apply H. lra.
Qed.

Lemma parallel_dot : forall a b p, vdot a p = 0 -> determinant a b = 0 -> a <> (0, 0) -> vdot b p = 0.
Proof.
  intros [a1 a2] [b1 b2] [p1 p2] H D N. unfold vdot, determinant in *. cbn [fst snd] in *.
  assert (a1 <> 0 \/ a2 <> 0) as [Ha | Ha].
  { destruct (Req_dec a1 0) as [-> | Ha]; [right | left; exact Ha]. intros ->. apply N. reflexivity. }
  - apply Rmult_eq_reg_l with a1; [| exact Ha].
    replace (a1 * (b1 * p1 + b2 * p2)) with (b1 * (a1 * p1 + a2 * p2) + (a1 * b2 - a2 * b1) * p2) by ring. rewrite H, D. ring.
  - apply Rmult_eq_reg_l with a2; [| exact Ha].
    replace (a2 * (b1 * p1 + b2 * p2)) with (b2 * (a1 * p1 + a2 * p2) - (a1 * b2 - a2 * b1) * p1) by ring. rewrite H, D. ring.
Qed.

Lemma det_nonzero_row : forall a b, determinant a b <> 0 -> a <> (0, 0) /\ b <> (0, 0).
Proof.
  intros a b H. split; intros ->; apply H; unfold determinant; cbn [fst snd]; ring.
Qed.

Section Ratio.
Variables (rows : list constraint) (x p : vec) (qq : nat).
Hypothesis Hq : vdot (row rows qq) p = 0.
Hypothesis Hn : row rows qq <> (0, 0).

Let y i := (bound rows i - vdot (row rows i) x) / vdot (row rows i) p.

Lemma nonsingular_when_blocking : forall i, vdot (row rows i) p < 0 -> IsNonSingular rows qq i = true.
Proof.
  intros i Hi. unfold IsNonSingular. destruct (Req_EM_T _ 0) as [E | E]; [| reflexivity].
  pose proof (parallel_dot _ _ _ Hq E Hn) as H. lra.
Qed.

Lemma ratio_fold : forall (l seen : list nat) acc,
  (match acc with
   | None => forall i, In i seen -> 0 <= vdot (row rows i) p
   | Some (alpha, i) => In i seen /\ vdot (row rows i) p < 0 /\ alpha = y i
                        /\ (forall j, In j seen -> vdot (row rows j) p < 0 -> alpha <= y j)
   end) ->
  match fold_left (ratio_step rows x p qq) l acc with
  | None => forall i, In i (seen ++ l) -> 0 <= vdot (row rows i) p
  | Some (alpha, i) => In i (seen ++ l) /\ vdot (row rows i) p < 0 /\ alpha = y i
                       /\ (forall j, In j (seen ++ l) -> vdot (row rows j) p < 0 -> alpha <= y j)
  end.
Proof.
  induction l as [| k l IH]; intros seen acc H.
  - cbn [fold_left]. rewrite app_nil_r. exact H.
  - cbn [fold_left]. replace (seen ++ k :: l) with ((seen ++ [k]) ++ l) by (rewrite <- app_assoc; reflexivity).
    apply IH. unfold ratio_step.
    destruct (Rlt_dec (vdot (row rows k) p) 0) as [Hk | Hk].
    + rewrite (nonsingular_when_blocking k Hk), andb_true_r. fold (y k).
      destruct acc as [[alpha i] |].
      * destruct H as (Hi & Hip & Ha & Hmin). destruct (Rlt_dec (y k) alpha) as [L | L].
        -- split; [apply in_or_app; right; left; reflexivity |]. split; [exact Hk |]. split; [reflexivity |].
           intros j Hj Hjp. apply in_app_or in Hj as [Hj | [<- | []]]; [| lra]. specialize (Hmin j Hj Hjp). lra.
        -- split; [apply in_or_app; left; exact Hi |]. split; [exact Hip |]. split; [exact Ha |].
           intros j Hj Hjp. apply in_app_or in Hj as [Hj | [<- | []]]; [exact (Hmin j Hj Hjp) | lra].
      * split; [apply in_or_app; right; left; reflexivity |]. split; [exact Hk |]. split; [reflexivity |].
        intros j Hj Hjp. apply in_app_or in Hj as [Hj | [<- | []]]; [| lra]. specialize (H j Hj). lra.
    + destruct acc as [[alpha i] |].
      * destruct H as (Hi & Hip & Ha & Hmin).
        split; [apply in_or_app; left; exact Hi |]. split; [exact Hip |]. split; [exact Ha |].
        intros j Hj Hjp. apply in_app_or in Hj as [Hj | [<- | []]]; [exact (Hmin j Hj Hjp) | lra].
      * intros j Hj. apply in_app_or in Hj as [Hj | [<- | []]]; [exact (H j Hj) | lra].
Qed.

Lemma ratio_test_spec :
  match ratio_test rows x p qq with
  | None => forall i, (i < length rows)%nat -> 0 <= vdot (row rows i) p
  | Some (alpha, i) => (i < length rows)%nat /\ vdot (row rows i) p < 0 /\ alpha * vdot (row rows i) p = bound rows i - vdot (row rows i) x
      /\ (forall j, (j < length rows)%nat -> vdot (row rows j) p < 0 -> bound rows j - vdot (row rows j) x <= alpha * vdot (row rows j) p)
  end.
Proof.
  pose proof (ratio_fold (seq 0 (length rows)) [] None) as H. unfold ratio_test.
  specialize (H ltac:(intros i [])). cbn [app] in H.
  destruct (fold_left _ _ _) as [[alpha i] |].
  - destruct H as (Hi & Hip & Ha & Hmin). apply in_seq in Hi. split; [lia |]. split; [exact Hip |]. split.
    + rewrite Ha. unfold y. field. lra.
    + intros j Hj Hjp. specialize (Hmin j ltac:(apply in_seq; lia) Hjp).
      replace (bound rows j - vdot (row rows j) x) with (y j * vdot (row rows j) p) by (unfold y; field; lra). nra.
  - intros i Hi. apply H. apply in_seq. lia.
Qed.
End Ratio.

(** The vertex of a working set *)
Definition vertex (rows : list constraint) (w0 w1 : nat) (x : vec) : Prop :=
  determinant (row rows w0) (row rows w1) <> 0
  /\ vdot (row rows w0) x = bound rows w0 /\ vdot (row rows w1) x = bound rows w1
  /\ (forall i, (i < length rows)%nat -> bound rows i <= vdot (row rows i) x)
  /\ (w0 < length rows)%nat /\ (w1 < length rows)%nat.

Lemma vertex_swap : forall rows w0 w1 x, vertex rows w0 w1 x -> vertex rows w1 w0 x.
Proof.
  intros rows w0 w1 x (D & T0 & T1 & F & L0 & L1). repeat split; try assumption.
  intro E. apply D. unfold determinant in *. lra.
Qed.

(** One pivot which replaces q and keeps o *)
Lemma pivot : forall rows x o q p, vertex rows o q x -> vdot (row rows o) p = 0 -> vdot (row rows q) p = 1 ->
  match ratio_test rows x p o with
  | None => forall i, (i < length rows)%nat -> 0 <= vdot (row rows i) p
  | Some (alpha, i) => i <> q /\ vertex rows o i (vadd x (vmul alpha p)) /\ vdot (row rows i) p < 0
  end.
Proof.
  intros rows x o q p (D & T0 & T1 & F & L0 & L1) Ho Hqp.
  pose proof (det_nonzero_row _ _ D) as [N _].
  pose proof (ratio_test_spec rows x p o Ho N) as H.
  destruct (ratio_test rows x p o) as [[alpha i] |]; [| exact H].
  destruct H as (Hi & Hip & Ha & Hmin).
  pose proof (nonsingular_when_blocking rows p o Ho N i Hip) as NS.
  assert (A0 : 0 <= alpha).
  { specialize (F i Hi). assert (alpha * vdot (row rows i) p <= 0) by lra. nra. }
  split; [intros ->; lra |]. split; [| exact Hip].
  split; [unfold IsNonSingular in NS; destruct (Req_EM_T _ 0); [discriminate | assumption] |].
  rewrite !vdot_vadd, !vdot_vmul. split; [rewrite Ho; lra |]. split; [lra |]. split; [| split; assumption].
  intros j Hj. rewrite vdot_vadd, vdot_vmul.
  destruct (Rlt_dec (vdot (row rows j) p) 0) as [Hjp | Hjp].
  - specialize (Hmin j Hj Hjp). lra.
  - specialize (F j Hj). assert (0 <= alpha * vdot (row rows j) p) by (apply Rmult_le_pos; lra). lra.
Qed.

(** What an iteration does *)
Lemma lp_step : forall rows c k w0 w1 x, vertex rows w0 w1 x ->
  (exists l0 l1, 0 <= l0 /\ 0 <= l1 /\ (forall v, vdot c v = l0 * vdot (row rows w0) v + l1 * vdot (row rows w1) v)
     /\ lp_loop rows c (S k) w0 w1 x = Solved x)
  \/ exists o q lo lq p, ((o, q) = (w0, w1) \/ (o, q) = (w1, w0)) /\ lq < 0 /\ lq <= lo
     /\ (forall v, vdot c v = lo * vdot (row rows o) v + lq * vdot (row rows q) v)
     /\ vdot (row rows o) p = 0 /\ vdot (row rows q) p = 1
     /\ ((lp_loop rows c (S k) w0 w1 x = AssertionFailed /\ forall i, (i < length rows)%nat -> 0 <= vdot (row rows i) p)
         \/ exists i x', vertex rows o i x' /\ vdot (row rows i) p < 0
              /\ (lp_loop rows c (S k) w0 w1 x = lp_loop rows c k o i x' \/ lp_loop rows c (S k) w0 w1 x = lp_loop rows c k i o x')).
Proof.
  intros rows c k w0 w1 x V. pose proof V as (D & _).
  pose proof (solve_transposed_spec _ _ c D) as HL.
  cbn [lp_loop]. destruct (Req_EM_T _ 0) as [E | _]; [contradiction |].
  destruct (solve_transposed (row rows w0) (row rows w1) c) as [l0 l1]. cbn [fst snd] in *.
  destruct (Rle_dec 0 l0) as [P0 | P0]; destruct (Rle_dec 0 l1) as [P1 | P1]; cbn [andb].
  1: { left. exists l0, l1. repeat split; try assumption. }
  all: right; destruct (Rlt_dec l0 l1) as [L | L]; try (exfalso; lra).
  - (* l1 dropped *)
    destruct (solve_spec _ _ (0, 1) D) as [S0 S1]. cbn [fst snd] in S0, S1.
    set (p := solve _ _ _) in *. clearbody p.
    pose proof (pivot rows x w0 w1 p V S0 S1) as HP.
    exists w0, w1, l0, l1, p. split; [left; reflexivity |]. split; [lra |]. split; [lra |]. split; [exact HL |]. split; [exact S0 |]. split; [exact S1 |].
    destruct (ratio_test rows x p w0) as [[alpha i] |]; [right | left; split; [reflexivity | exact HP]].
    destruct HP as (Ni & Vi & Hi). exists i, (vadd x (vmul alpha p)). split; [exact Vi |]. split; [exact Hi |].
    destruct (Nat.eqb_spec i w1); [contradiction |]. left. reflexivity.
  - destruct (solve_spec _ _ (1, 0) D) as [S0 S1]. cbn [fst snd] in S0, S1.
    set (p := solve _ _ _) in *. clearbody p.
    pose proof (pivot rows x w1 w0 p (vertex_swap _ _ _ _ V) S1 S0) as HP.
    exists w1, w0, l1, l0, p. split; [right; reflexivity |]. split; [lra |]. split; [lra |]. split; [intro v; rewrite HL; ring |]. split; [exact S1 |]. split; [exact S0 |].
    destruct (ratio_test rows x p w1) as [[alpha i] |]; [right | left; split; [reflexivity | exact HP]].
    destruct HP as (Ni & Vi & Hi). exists i, (vadd x (vmul alpha p)). split; [exact Vi |]. split; [exact Hi |].
    destruct (Nat.eqb_spec i w0); [contradiction |]. right. reflexivity.
  - destruct (solve_spec _ _ (1, 0) D) as [S0 S1]. cbn [fst snd] in S0, S1.
    set (p := solve _ _ _) in *. clearbody p.
    pose proof (pivot rows x w1 w0 p (vertex_swap _ _ _ _ V) S1 S0) as HP.
    exists w1, w0, l1, l0, p. split; [right; reflexivity |]. split; [lra |]. split; [lra |]. split; [intro v; rewrite HL; ring |]. split; [exact S1 |]. split; [exact S0 |].
    destruct (ratio_test rows x p w1) as [[alpha i] |]; [right | left; split; [reflexivity | exact HP]].
    destruct HP as (Ni & Vi & Hi). exists i, (vadd x (vmul alpha p)). split; [exact Vi |]. split; [exact Hi |].
    destruct (Nat.eqb_spec i w0); [contradiction |]. right. reflexivity.
  - destruct (solve_spec _ _ (0, 1) D) as [S0 S1]. cbn [fst snd] in S0, S1.
    set (p := solve _ _ _) in *. clearbody p.
    pose proof (pivot rows x w0 w1 p V S0 S1) as HP.
    exists w0, w1, l0, l1, p. split; [left; reflexivity |]. split; [lra |]. split; [lra |]. split; [exact HL |]. split; [exact S0 |]. split; [exact S1 |].
    destruct (ratio_test rows x p w0) as [[alpha i] |]; [right | left; split; [reflexivity | exact HP]].
    destruct HP as (Ni & Vi & Hi). exists i, (vadd x (vmul alpha p)). split; [exact Vi |]. split; [exact Hi |].
    destruct (Nat.eqb_spec i w1); [contradiction |]. left. reflexivity.
Qed.

(** ** The specification in terms of the rows *)

Lemma feasible_rows : forall rows x, feasible rows x <-> forall i, (i < length rows)%nat -> bound rows i <= vdot (row rows i) x.
Proof.
  intros rows x. split.
  - intros H i Hi. specialize (H (nth i rows ((0, 0), 0)) (nth_In _ _ Hi)). unfold bound, row, vdot, constraint, vec in *.
    destruct (nth i rows (0, 0, 0)) as [[a1 a2] b], x as [x1 x2]. cbn [holds fst snd] in *. exact H.
  - intros H k Hk. destruct (In_nth _ _ ((0, 0), 0) Hk) as (i & Hi & E). specialize (H i Hi). unfold bound, row, vdot, constraint, vec in *.
    rewrite E in H. destruct k as [[a1 a2] b], x as [x1 x2]. cbn [holds fst snd] in *. exact H.
Qed.

Lemma cost_vdot : forall c x, cost c x = vdot c x.
Proof. intros [c1 c2] [x1 x2]. reflexivity. Qed.

Lemma starting_vertex_rows : forall rows x, feasible rows x -> starting_vertex rows x -> vertex rows 0 1 x.
Proof.
  intros rows x F H. rewrite feasible_rows in F. destruct rows as [| [[a1 a2] b] [| [[b1 b2] d] rows]]; try contradiction.
  destruct H as (T0 & T1 & N). destruct x as [x1 x2]. cbn [tight] in T0, T1.
  unfold vertex. split; [unfold determinant; cbn [row nth fst snd]; lra |].
  split; [unfold vdot; cbn [row bound nth fst snd]; exact T0 |].
  split; [unfold vdot; cbn [row bound nth fst snd]; exact T1 |].
  split; [exact F |]. cbn [length]. split; lia.
Qed.

Lemma solved_optimal : forall rows c x w0 w1 l0 l1, vertex rows w0 w1 x -> 0 <= l0 -> 0 <= l1 ->
  (forall v, vdot c v = l0 * vdot (row rows w0) v + l1 * vdot (row rows w1) v) -> optimal rows c x.
Proof.
  intros rows c x w0 w1 l0 l1 (D & T0 & T1 & F & L0 & L1) P0 P1 H. split; [apply feasible_rows; exact F |].
  intros z Hz. rewrite feasible_rows in Hz. rewrite !cost_vdot, !H, T0, T1.
  pose proof (Hz w0 L0). pose proof (Hz w1 L1). nra.
Qed.

Lemma ray_unbounded : forall rows c x p, feasible rows x -> vdot c p < 0 -> (forall i, (i < length rows)%nat -> 0 <= vdot (row rows i) p) ->
  unbounded rows c.
Proof.
  intros rows c x p F N H K. rewrite feasible_rows in F.
  set (t := Rmax 0 ((K - 1 - vdot c x) / vdot c p)).
  exists (vadd x (vmul t p)). assert (T : 0 <= t) by apply Rmax_l. split.
  - apply feasible_rows. intros i Hi. rewrite vdot_vadd, vdot_vmul. specialize (F i Hi). specialize (H i Hi).
    assert (0 <= t * vdot (row rows i) p) by (apply Rmult_le_pos; assumption). lra.
  - rewrite cost_vdot, vdot_vadd, vdot_vmul.
    assert (T2 : (K - 1 - vdot c x) / vdot c p <= t) by apply Rmax_r.
    assert (t * vdot c p <= (K - 1 - vdot c x) / vdot c p * vdot c p) by nra.
    replace ((K - 1 - vdot c x) / vdot c p * vdot c p) with (K - 1 - vdot c x) in H0 by (field; lra). lra.
Qed.

(** Whatever the number of iterations, the answer is right. *)
Lemma lp_loop_sound : forall rows c k w0 w1 x, vertex rows w0 w1 x ->
  match lp_loop rows c k w0 w1 x with
  | Solved z => optimal rows c z
  | AssertionFailed => unbounded rows c
  | ConvergenceError => True
  end.
Proof.
  intros rows c k. induction k as [| k IH]; intros w0 w1 x V; [exact I |].
  destruct (lp_step rows c k w0 w1 x V) as [(l0 & l1 & P0 & P1 & H & E) | (o & q & lo & lq & p & Ho & Nq & Lq & HL & Po & Pq & Cs)].
  - rewrite E. exact (solved_optimal _ _ _ _ _ _ _ V P0 P1 H).
  - destruct Cs as [(E & R) | (i & x' & V' & Hi & [E | E])]; rewrite E.
    + apply (ray_unbounded rows c x p); [apply feasible_rows; apply V | rewrite HL, Po, Pq; lra | exact R].
    + apply IH. exact V'.
    + apply IH. apply vertex_swap. exact V'.
Qed.

(** ** Termination *)

Definition ahead (s : R) (c a b : vec) : bool :=
  (if Rlt_dec 0 (s * determinant b c) then true else false) && (if Rlt_dec 0 (s * determinant a b) then true else false).

Definition candidates (rows : list constraint) (s : R) (c : vec) (o : nat) : list nat :=
  filter (fun i => ahead s c (row rows o) (row rows i)) (seq 0 (length rows)).

Lemma filter_incl_length : forall (A : Type) (f g : A -> bool) l, (forall a, In a l -> f a = true -> g a = true) -> (length (filter f l) <= length (filter g l))%nat.
Proof.
  intros A f g. induction l as [| a l IH]; intro H; [apply le_n |]. cbn [filter].
  assert (H' : forall b, In b l -> f b = true -> g b = true) by (intros b Hb; apply H; right; exact Hb). specialize (IH H').
  destruct (f a) eqn:Ea.
  - rewrite (H a ltac:(left; reflexivity) Ea). cbn [length]. lia.
  - destruct (g a); cbn [length]; lia.
Qed.

Lemma filter_strict_length : forall (A : Type) (f g : A -> bool) l a, In a l -> (forall a, In a l -> f a = true -> g a = true) ->
  f a = false -> g a = true -> (length (filter f l) < length (filter g l))%nat.
Proof.
  intros A f g. induction l as [| b l IH]; intros a Ha H Fa Ga; [contradiction |]. cbn [filter].
  assert (H' : forall b, In b l -> f b = true -> g b = true) by (intros d Hb; apply H; right; exact Hb).
  destruct Ha as [-> | Ha].
  - rewrite Fa, Ga. cbn [length]. pose proof (filter_incl_length A f g l H'). lia.
  - specialize (IH a Ha H' Fa Ga). destruct (f b) eqn:Eb.
    + rewrite (H b ltac:(left; reflexivity) Eb). cbn [length]. lia.
    + destruct (g b); cbn [length]; lia.
Qed.

Lemma candidates_decrease : forall rows s c o n, (n < length rows)%nat ->
  0 < s * determinant (row rows o) c -> 0 < s * determinant (row rows n) c -> 0 < s * determinant (row rows o) (row rows n) ->
  (length (candidates rows s c n) < length (candidates rows s c o))%nat.
Proof.
  intros rows s c o n Ln Xo Xn Hon. unfold candidates. apply filter_strict_length with n.
  - apply in_seq. lia.
  - intros i Hi. unfold ahead. destruct (Rlt_dec 0 (s * determinant (row rows i) c)) as [Xi | Xi]; [| discriminate].
    destruct (Rlt_dec 0 (s * determinant (row rows n) (row rows i))) as [Hni | Hni]; [| discriminate]. intros _.
    destruct (Rlt_dec 0 (s * determinant (row rows o) (row rows i))) as [Hoi | Hoi]; [reflexivity |]. exfalso. apply Hoi.
    revert Xo Xn Hon Xi Hni. generalize (row rows o), (row rows n), (row rows i). intros [o1 o2] [n1 n2] [i1 i2]. destruct c as [c1 c2].
    unfold determinant. cbn [fst snd]. intros Xo Xn Hon Xi Hni.
    assert (I : s * (o1 * i2 - o2 * i1) * (s * (n1 * c2 - n2 * c1)) = s * (o1 * n2 - o2 * n1) * (s * (i1 * c2 - i2 * c1)) + s * (n1 * i2 - n2 * i1) * (s * (o1 * c2 - o2 * c1))) by ring.
    assert (0 < s * (o1 * i2 - o2 * i1) * (s * (n1 * c2 - n2 * c1))).
    { rewrite I. pose proof (Rmult_lt_0_compat _ _ Hon Xi). pose proof (Rmult_lt_0_compat _ _ Hni Xo). lra. }
    apply Rmult_lt_reg_r with (s * (n1 * c2 - n2 * c1)); [exact Xn |]. lra.
  - unfold ahead. apply andb_false_intro2. destruct (Rlt_dec 0 (s * determinant (row rows n) (row rows n))) as [H | H]; [| reflexivity].
    exfalso. unfold determinant in H. replace (s * (fst (row rows n) * snd (row rows n) - snd (row rows n) * fst (row rows n))) with 0 in H by ring. lra.
  - unfold ahead. destruct (Rlt_dec 0 (s * determinant (row rows n) c)); [| contradiction].
    destruct (Rlt_dec 0 (s * determinant (row rows o) (row rows n))); [reflexivity | contradiction].
Qed.

(** c as a combination of two rows, and what its determinants are *)
Lemma comb_det : forall (c a b : vec) la lb, (forall v, vdot c v = la * vdot a v + lb * vdot b v) ->
  determinant a c = lb * determinant a b /\ determinant b c = la * determinant b a.
Proof.
  intros [c1 c2] [a1 a2] [b1 b2] la lb H. pose proof (H (1, 0)) as H1. pose proof (H (0, 1)) as H2.
  unfold vdot, determinant in *. cbn [fst snd] in *.
  assert (c1 = la * a1 + lb * b1) by lra. assert (c2 = la * a2 + lb * b2) by lra. subst. split; ring.
Qed.

(** The pivot in terms of determinants: a_i p = det(a_o, a_i) / det(a_o, a_q) *)
Lemma blocking_det : forall (ao aq ai p : vec), vdot ao p = 0 -> vdot aq p = 1 ->
  determinant ao ai = vdot ai p * determinant ao aq.
Proof.
  intros [o1 o2] [q1 q2] [i1 i2] [p1 p2] Ho Hq. unfold vdot, determinant in *. cbn [fst snd] in *.
  (* o = t (-p2, p1)-direction: use o p = 0 and q p = 1 *)
  transitivity ((o1 * i2 - o2 * i1) * (q1 * p1 + q2 * p2)); [rewrite Hq; ring |].
  transitivity ((i1 * p1 + i2 * p2) * (o1 * q2 - o2 * q1) + (q1 * i2 - q2 * i1) * (o1 * p1 + o2 * p2)); [ring | rewrite Ho; ring].
Qed.

(** A state after a pivot: n is new, the multiplier of n is positive *)
Lemma lp_loop_terminates : forall rows c s k w0 w1 x o n mo mn,
  vertex rows w0 w1 x -> ((o, n) = (w0, w1) \/ (o, n) = (w1, w0)) ->
  (forall v, vdot c v = mo * vdot (row rows o) v + mn * vdot (row rows n) v) -> 0 < mn ->
  0 < s * determinant (row rows o) (row rows n) ->
  (length (candidates rows s c o) < k)%nat ->
  lp_loop rows c k w0 w1 x <> ConvergenceError.
Proof.
  intros rows c s k. induction k as [| k IH]; intros w0 w1 x o n mo mn V Hon HL Pn Ds Hk; [lia |].
  destruct (lp_step rows c k w0 w1 x V) as [(l0 & l1 & P0 & P1 & H & E) | (o' & q & lo & lq & p & Ho & Nq & Lq & HL' & Po & Pq & Cs)].
  { rewrite E. discriminate. }
  destruct Cs as [(E & R) | (i & x' & V' & Hi & E)]; [rewrite E; discriminate |].
  assert (D : determinant (row rows o) (row rows n) <> 0) by (intro E0; rewrite E0 in Ds; lra).
  (* the dropped row is o *)
  assert (Same : o' = n /\ q = o).
  { assert (Cs : (o' = o /\ q = n) \/ (o' = n /\ q = o)).
    { destruct Hon as [Hon | Hon], Ho as [Ho | Ho]; injection Hon as -> ->; injection Ho as -> ->; auto. }
    destruct Cs as [[-> ->] | Cs]; [exfalso | exact Cs].
    (* multiplier of n is unique *)
    destruct (comb_det _ _ _ _ _ HL) as [E1 _]. destruct (comb_det _ _ _ _ _ HL') as [E2 _]. rewrite E1 in E2.
    apply Rmult_eq_reg_r in E2; [lra | exact D]. }
  destruct Same as [-> ->].
  assert (Em : mn = lo /\ mo = lq).
  { destruct (comb_det _ _ _ _ _ HL) as [E1 E2]. destruct (comb_det _ _ _ _ _ HL') as [E3 E4].
    assert (D' : determinant (row rows n) (row rows o) <> 0) by (unfold determinant in *; lra).
    rewrite E1 in E4. rewrite E2 in E3. apply Rmult_eq_reg_r in E4; [| exact D]. apply Rmult_eq_reg_r in E3; [| exact D']. split; assumption. }
  destruct Em as [-> ->].
  pose proof (blocking_det _ _ (row rows i) _ Po Pq) as Bi.
  assert (Anti : determinant (row rows n) (row rows o) = - determinant (row rows o) (row rows n)) by (unfold determinant; ring).
  destruct (comb_det _ _ _ _ _ HL) as [X1 X2].
  assert (Xo : 0 < s * determinant (row rows o) c).
  { rewrite X1. replace (s * (lo * determinant (row rows o) (row rows n))) with (lo * (s * determinant (row rows o) (row rows n))) by ring.
    apply Rmult_lt_0_compat; assumption. }
  assert (Xn : 0 < s * determinant (row rows n) c).
  { rewrite X2, Anti. replace (s * (lq * - determinant (row rows o) (row rows n))) with ((- lq) * (s * determinant (row rows o) (row rows n))) by ring.
    apply Rmult_lt_0_compat; lra. }
  assert (Dn : 0 < s * determinant (row rows n) (row rows i)).
  { rewrite Bi, Anti. replace (s * (vdot (row rows i) p * - determinant (row rows o) (row rows n))) with ((- vdot (row rows i) p) * (s * determinant (row rows o) (row rows n))) by ring.
    apply Rmult_lt_0_compat; lra. }
  assert (Ln : (n < length rows)%nat) by apply V'.
  pose proof (candidates_decrease rows s c o n Ln Xo Xn Ds) as Dec.
  (* the multipliers of n and i *)
  set (mi := lq / vdot (row rows i) p).
  assert (Pi : 0 < mi).
  { unfold mi. replace (lq / vdot (row rows i) p) with ((- lq) / (- vdot (row rows i) p)) by (field; lra). apply Rdiv_lt_0_compat; lra. }
  assert (HLi : exists mn', forall v, vdot c v = mn' * vdot (row rows n) v + mi * vdot (row rows i) v).
  { assert (Dni : determinant (row rows n) (row rows i) <> 0) by (intro E0; rewrite E0 in Dn; lra).
    pose proof (solve_transposed_spec _ _ c Dni) as HS.
    set (l := solve_transposed _ _ _) in HS. clearbody l. destruct l as [l0 l1]. cbn [fst snd] in HS.
    exists l0. intro v. rewrite (HS v). f_equal. f_equal. pose proof (HS p) as HSp. rewrite (HL' p), Po, Pq in HSp.
    unfold mi. apply Rmult_eq_reg_r with (vdot (row rows i) p); [| lra]. unfold Rdiv. rewrite Rmult_assoc, Rinv_l by lra. lra. }
  destruct HLi as (mn' & HLi).
  destruct E as [E | E]; rewrite E.
  - apply (IH n i x' n i mn' mi V'); [left; reflexivity | exact HLi | exact Pi | exact Dn | lia].
  - apply (IH i n x' n i mn' mi (vertex_swap _ _ _ _ V')); [right; reflexivity | exact HLi | exact Pi | exact Dn | lia].
Qed.

Lemma candidates_bound : forall rows s c o, (o < length rows)%nat -> (length (candidates rows s c o) < length rows)%nat.
Proof.
  intros rows s c o Lo. unfold candidates.
  assert (H : (length (filter (fun i => ahead s c (row rows o) (row rows i)) (seq 0 (length rows))) < length (filter (fun _ => true) (seq 0 (length rows))))%nat).
  { apply filter_strict_length with o; [apply in_seq; lia | reflexivity | | reflexivity].
    unfold ahead. apply andb_false_intro2. destruct (Rlt_dec 0 (s * determinant (row rows o) (row rows o))) as [H | H]; [| reflexivity].
    exfalso. unfold determinant in H. replace (s * (fst (row rows o) * snd (row rows o) - snd (row rows o) * fst (row rows o))) with 0 in H by ring. lra. }
  assert (E : forall l : list nat, filter (fun _ => true) l = l) by (induction l as [| a l IH]; [reflexivity | cbn [filter]; rewrite IH; reflexivity]).
  rewrite E, seq_length in H. exact H.
Qed.

Lemma solver_terminates : forall rows c k w0 w1 x, vertex rows w0 w1 x -> (length rows < k)%nat ->
  lp_loop rows c k w0 w1 x <> ConvergenceError.
Proof.
  intros rows c [| k] w0 w1 x V Hk; [lia |].
  destruct (lp_step rows c k w0 w1 x V) as [(l0 & l1 & P0 & P1 & H & E) | (o & q & lo & lq & p & Ho & Nq & Lq & HL' & Po & Pq & Cs)].
  { rewrite E. discriminate. }
  destruct Cs as [(E & R) | (i & x' & V' & Hi & E)]; [rewrite E; discriminate |].
  assert (D' : determinant (row rows o) (row rows i) <> 0) by apply V'.
  set (s := if Rlt_dec 0 (determinant (row rows o) (row rows i)) then 1 else - (1)).
  assert (Ds : 0 < s * determinant (row rows o) (row rows i)).
  { unfold s. destruct (Rlt_dec 0 _); [lra |]. assert (determinant (row rows o) (row rows i) < 0) by lra. lra. }
  set (mi := lq / vdot (row rows i) p).
  assert (Pi : 0 < mi).
  { unfold mi. replace (lq / vdot (row rows i) p) with ((- lq) / (- vdot (row rows i) p)) by (field; lra). apply Rdiv_lt_0_compat; lra. }
  assert (HLi : exists mn', forall v, vdot c v = mn' * vdot (row rows o) v + mi * vdot (row rows i) v).
  { pose proof (solve_transposed_spec _ _ c D') as HS.
    set (l := solve_transposed _ _ _) in HS. clearbody l. destruct l as [l0 l1]. cbn [fst snd] in HS.
    exists l0. intro v. rewrite (HS v). f_equal. f_equal. pose proof (HS p) as HSp. rewrite (HL' p), Po, Pq in HSp.
    unfold mi. apply Rmult_eq_reg_r with (vdot (row rows i) p); [| lra]. unfold Rdiv. rewrite Rmult_assoc, Rinv_l by lra. lra. }
  destruct HLi as (mn' & HLi).
  assert (Lo : (o < length rows)%nat) by apply V'.
  pose proof (candidates_bound rows s c o Lo).
  destruct E as [E | E]; rewrite E.
  - apply (lp_loop_terminates rows c s k o i x' o i mn' mi V'); [left; reflexivity | exact HLi | exact Pi | exact Ds | lia].
  - apply (lp_loop_terminates rows c s k i o x' o i mn' mi (vertex_swap _ _ _ _ V')); [right; reflexivity | exact HLi | exact Pi | exact Ds | lia].
Qed.
