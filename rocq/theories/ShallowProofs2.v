(** Lemmas for C79-C82: the waves put together. *)
From Coq Require Import List Reals Lia Lra Psatz Bool.
From Verif Require Import NewtonModel ShallowModel ShallowSpec ShallowProofs.
Import ListNotations.
Local Open Scope R_scope.

(** ** Local behaviour *)

Definition before (x : R) (P : R -> Prop) : Prop := exists a, a < x /\ forall y, a < y < x -> P y.
Definition after (x : R) (P : R -> Prop) : Prop := exists b, x < b /\ forall y, x < y < b -> P y.
Definition near (x : R) (P : R -> Prop) : Prop := exists a b, a < x < b /\ forall y, a < y < b -> P y.
(** at the outer and at the inner side of x, for a wave of the family s *)
Definition outer (s x : R) (P : R -> Prop) : Prop := exists e, 0 < e /\ forall y, s * x - e < s * y < s * x -> P y.
Definition inner (s x : R) (P : R -> Prop) : Prop := exists e, 0 < e /\ forall y, s * x < s * y < s * x + e -> P y.

Lemma conserved_near g d w v x : near x (fun y => w y = v y) -> conserved_at g d v x -> conserved_at g d w x.
Proof.
  intros (a & b & Hab & E) H c. destruct (H c) as (dq & df & D1 & D2 & R1). exists dq, df.
  assert (forall (F : water -> R) l, derivable_pt_lim (fun y => F (v y)) x l -> derivable_pt_lim (fun y => F (w y)) x l) as K.
  { intros F l D e He. destruct (D e He) as [dl Hdl].
    assert (0 < Rmin dl (Rmin (x - a) (b - x))) as P by (repeat apply Rmin_glb_lt; try lra; apply cond_pos).
    exists (mkposreal _ P). intros h Hh Hlt. cbn in Hlt.
    pose proof (Rmin_l dl (Rmin (x - a) (b - x))). pose proof (Rmin_r dl (Rmin (x - a) (b - x))).
    pose proof (Rmin_l (x - a) (b - x)). pose proof (Rmin_r (x - a) (b - x)).
    assert (-h <= Rabs h) by (rewrite <- Rabs_Ropp; apply Rle_abs). pose proof (Rle_abs h).
    rewrite (E x), (E (x + h)) by lra. apply Hdl; [exact Hh | lra]. }
  split; [apply (K (amount d c)); exact D1|]. split; [apply (K (fun q => transport g d c q)); exact D2 | exact R1].
Qed.

Lemma derivable_limit f x l P : derivable_pt_lim f x l -> limit1_in f P (f x) x.
Proof.
  intros D e He.
  assert (derivable_pt f x) as Df by (exists l; exact D).
  destruct (derivable_continuous_pt f x Df e He) as (al & Hal & H). exists al. split; [exact Hal|].
  intros y [_ Hy]. destruct (Req_dec y x) as [-> | N].
  - cbn. unfold R_dist. rewrite Rminus_diag_eq, Rabs_R0 by reflexivity. exact He.
  - apply H. split; [split; [exact I | congruence] | exact Hy].
Qed.

Lemma limit_before w v F x l : before x (fun y => w y = v y) ->
  derivable_pt_lim (fun y => F (v y)) x l -> left_limit (fun y => F (w y)) x (F (v x : water) : R).
Proof.
  intros (a & Ha & E) D e He. destruct (derivable_limit _ _ _ (fun y => y < x) D e He) as (al & Hal & H).
  exists (Rmin al (x - a)). split; [apply Rmin_glb_lt; lra|]. intros y [Hy Hd].
  pose proof (Rmin_l al (x - a)). pose proof (Rmin_r al (x - a)).
  cbn in Hd |- *. unfold R_dist in Hd. assert (x - y <= Rabs (y - x)) by (rewrite Rabs_minus_sym; apply Rle_abs).
  rewrite E by lra. apply H. split; [exact Hy|]. cbn. unfold R_dist. lra.
Qed.

Lemma limit_after w v F x l : after x (fun y => w y = v y) ->
  derivable_pt_lim (fun y => F (v y)) x l -> right_limit (fun y => F (w y)) x (F (v x : water) : R).
Proof.
  intros (a & Ha & E) D e He. destruct (derivable_limit _ _ _ (fun y => x < y) D e He) as (al & Hal & H).
  exists (Rmin al (a - x)). split; [apply Rmin_glb_lt; lra|]. intros y [Hy Hd].
  pose proof (Rmin_l al (a - x)). pose proof (Rmin_r al (a - x)).
  cbn in Hd |- *. unfold R_dist in Hd. assert (y - x <= Rabs (y - x)) by (apply Rle_abs).
  rewrite E by lra. apply H. split; [exact Hy|]. cbn. unfold R_dist. lra.
Qed.

Lemma jump_intro g d w v1 v2 x :
  before x (fun y => w y = v1 y) -> after x (fun y => w y = v2 y) ->
  conserved_at g d v1 x -> conserved_at g d v2 x -> 0 < height (v1 x) -> 0 < height (v2 x) ->
  (forall c, transport g d c (v2 x) - transport g d c (v1 x) = x * (amount d c (v2 x) - amount d c (v1 x))) ->
  mechanical_flux g d (v2 x) - mechanical_flux g d (v1 x) <= x * (mechanical g d (v2 x) - mechanical g d (v1 x)) ->
  w x = v1 x \/ w x = v2 x -> jump_at g d w x.
Proof.
  intros B A C1 C2 A1 A2 RH En Hw. exists (v1 x), (v2 x). split; [exact A1|]. split; [exact A2|]. split; [|split; [|auto]].
  - intros c. destruct (C1 c) as (dq & _ & D & _). exact (limit_before w v1 (amount d c) x dq B D).
  - intros c. destruct (C2 c) as (dq & _ & D & _). exact (limit_after w v2 (amount d c) x dq A D).
Qed.

(** The same with the outer and the inner side *)
Lemma jump_side g d s w v1 v2 x : s = 1 \/ s = -1 ->
  outer s x (fun y => w y = v1 y) -> inner s x (fun y => w y = v2 y) ->
  conserved_at g d v1 x -> conserved_at g d v2 x -> 0 < height (v1 x) -> 0 < height (v2 x) ->
  (forall c, transport g d c (v2 x) - transport g d c (v1 x) = x * (amount d c (v2 x) - amount d c (v1 x))) ->
  s * (mechanical_flux g d (v2 x) - mechanical_flux g d (v1 x) - x * (mechanical g d (v2 x) - mechanical g d (v1 x))) <= 0 ->
  w x = v1 x \/ w x = v2 x -> jump_at g d w x.
Proof.
  intros [-> | ->] (e1 & P1 & B) (e2 & P2 & A) C1 C2 A1 A2 RH En Hw.
  - apply (jump_intro g d w v1 v2 x); auto; [| |lra].
    + exists (x - e1). split; [lra|]. intros y Hy. apply B. lra.
    + exists (x + e2). split; [lra|]. intros y Hy. apply A. lra.
  - apply (jump_intro g d w v2 v1 x); auto; [| | |lra|tauto].
    + exists (x - e2). split; [lra|]. intros y Hy. apply A. lra.
    + exists (x + e1). split; [lra|]. intros y Hy. apply B. lra.
    + intros c. specialize (RH c). lra.
Qed.

Lemma jump_continuous g d s w v1 v2 x : s = 1 \/ s = -1 ->
  outer s x (fun y => w y = v1 y) -> inner s x (fun y => w y = v2 y) ->
  conserved_at g d v1 x -> conserved_at g d v2 x -> 0 < height (v1 x) -> v1 x = v2 x -> w x = v1 x -> jump_at g d w x.
Proof.
  intros Hs B A C1 C2 A1 E Hw. apply (jump_side g d s w v1 v2 x); auto.
  - rewrite <- E. exact A1.
  - intros c. rewrite E. ring.
  - rewrite E. right. ring.
Qed.

Lemma jump_local g d w v x : near x (fun y => w y = v y) -> jump_at g d v x -> jump_at g d w x.
Proof.
  intros (a & b & Hab & E) (ql & qr & A1 & A2 & L1 & L2 & RH & En & Hv). exists ql, qr.
  split; [exact A1|]. split; [exact A2|]. split; [|split; [|split; [exact RH|split; [exact En|]]]].
  - intros c e He. destruct (L1 c e He) as (al & Hal & H). exists (Rmin al (x - a)). split; [apply Rmin_glb_lt; lra|].
    intros y [Hy Hy']. pose proof (Rmin_l al (x - a)). pose proof (Rmin_r al (x - a)). cbn in Hy' |- *. unfold R_dist in Hy'.
    assert (x - y <= Rabs (y - x)) by (rewrite Rabs_minus_sym; apply Rle_abs).
    rewrite E by lra. apply H. split; [exact Hy|]. cbn. unfold R_dist. lra.
  - intros c e He. destruct (L2 c e He) as (al & Hal & H). exists (Rmin al (b - x)). split; [apply Rmin_glb_lt; lra|].
    intros y [Hy Hy']. pose proof (Rmin_l al (b - x)). pose proof (Rmin_r al (b - x)). cbn in Hy' |- *. unfold R_dist in Hy'.
    assert (y - x <= Rabs (y - x)) by apply Rle_abs.
    rewrite E by lra. apply H. split; [exact Hy|]. cbn. unfold R_dist. lra.
  - rewrite E by lra. exact Hv.
Qed.

(** ** The wave of one side *)

Section Wave.
Variables (g : R) (q : water) (d : bool) (s hM uM : R).
Hypothesis Hg : 0 < g.
Hypothesis Hq : 0 < height q.
Hypothesis Hs : s = 1 \/ s = -1.
Hypothesis HhM : 0 < hM.
Hypothesis HuM : uM = speed_of d q - s * psi g q hM.

Definition head : R := if Rlt_dec (height q) hM then shock_speed q d hM uM else speed_of d q - s * sqrt (g * height q).
Definition tail : R := if Rlt_dec (height q) hM then shock_speed q d hM uM else uM - s * sqrt (g * hM).

Definition wave (x : R) : water :=
  if Rlt_dec (s * x) (s * head) then q
  else if Rlt_dec (height q) hM then middle_of q d hM uM
  else if Rlt_dec (s * tail) (s * x) then middle_of q d hM uM
  else fan g q d s x.

Lemma order : s * head <= s * tail /\ s * tail < s * uM /\ (hM < height q -> s * head < s * tail).
Proof.
  unfold head, tail. destruct (Rlt_dec (height q) hM) as [L|L].
  - pose proof (shock_before g q d s Hg Hq Hs hM uM L HuM). repeat split; lra.
  - destruct (head_tail g q d s Hg Hs hM uM ltac:(lra) HuM) as (H1 & H2 & H3). auto.
Qed.

Lemma middle_height : 0 < height (middle_of q d hM uM).
Proof. exact HhM. Qed.

Lemma wave_outside x : s * x < s * head -> wave x = q.
Proof. intros H. unfold wave. destruct (Rlt_dec (s * x) (s * head)); [reflexivity|lra]. Qed.

Lemma wave_inside x : s * tail < s * x -> wave x = middle_of q d hM uM.
Proof.
  intros H. pose proof order as (O1 & _). unfold wave. destruct (Rlt_dec (s * x) (s * head)); [lra|].
  destruct (Rlt_dec (height q) hM); [reflexivity|]. destruct (Rlt_dec (s * tail) (s * x)); [reflexivity|lra].
Qed.

Lemma wave_fan x : hM <= height q -> s * head <= s * x <= s * tail -> wave x = fan g q d s x.
Proof.
  intros L H. unfold wave. destruct (Rlt_dec (s * x) (s * head)); [lra|].
  destruct (Rlt_dec (height q) hM); [lra|]. destruct (Rlt_dec (s * tail) (s * x)); [lra|reflexivity].
Qed.

Lemma tail_fan : hM <= height q -> tail = uM - s * sqrt (g * hM).
Proof. intros L. unfold tail. destruct (Rlt_dec (height q) hM); [lra|reflexivity]. Qed.
Lemma head_fan : hM <= height q -> head = speed_of d q - s * sqrt (g * height q).
Proof. intros L. unfold head. destruct (Rlt_dec (height q) hM); [lra|reflexivity]. Qed.

Lemma fan_positive x : hM <= height q -> s * x <= s * tail -> 0 < height (fan g q d s x).
Proof.
  intros L H. rewrite tail_fan in H by exact L. apply (fan_height_positive g q d s Hg Hs hM uM x); auto.
Qed.

Lemma wave_positive x : 0 < height (wave x).
Proof.
  unfold wave. destruct (Rlt_dec (s * x) (s * head)); [exact Hq|]. destruct (Rlt_dec (height q) hM); [exact HhM|].
  destruct (Rlt_dec (s * tail) (s * x)); [exact HhM|]. apply fan_positive; lra.
Qed.

Lemma sx_near x c : s * x < c \/ c < s * x -> forall P : R -> Prop,
  (forall y, (s * x < c -> s * y < c) /\ (c < s * x -> c < s * y) -> P y) -> near x P.
Proof.
  intros H P HP. set (e := Rabs (s * x - c)).
  assert (0 < e) as E by (apply Rabs_pos_lt; lra).
  exists (x - e), (x + e). split; [lra|]. intros y Hy. apply HP.
  pose proof (Rle_abs (s * x - c)) as A1. assert (- (s * x - c) <= e) as A2 by (unfold e; rewrite <- Rabs_Ropp; apply Rle_abs).
  fold e in A1. assert (e = s * x - c \/ e = c - s * x) as A3 by (unfold e, Rabs; destruct (Rcase_abs (s * x - c)); lra).
  destruct Hs as [-> | ->]; split; intros; lra.
Qed.

Lemma wave_smooth x : x <> head -> x <> tail -> conserved_at g d wave x.
Proof.
  intros N1 N2. pose proof order as (O1 & O2 & O3).
  assert (s * x <> s * head) as M1 by (intros E; apply N1; destruct Hs as [-> | ->]; lra).
  assert (s * x <> s * tail) as M2 by (intros E; apply N2; destruct Hs as [-> | ->]; lra).
  destruct (Rlt_dec (s * x) (s * head)) as [L1|L1].
  - apply (conserved_near g d _ (fun _ => q)); [|apply constant_state; exact Hq].
    apply (sx_near x (s * head)); [lra|]. intros y [Hy _]. apply wave_outside. auto.
  - destruct (Rlt_dec (s * tail) (s * x)) as [L2|L2].
    + apply (conserved_near g d _ (fun _ => middle_of q d hM uM)); [|apply constant_solution].
      apply (sx_near x (s * tail)); [lra|]. intros y [_ Hy]. apply wave_inside. auto.
    + assert (hM <= height q) as L.
      { destruct (Rle_dec hM (height q)); [assumption|]. exfalso. unfold head, tail in *.
        destruct (Rlt_dec (height q) hM); lra. }
      apply (conserved_near g d _ (fan g q d s)); [|apply fan_smooth; auto].
      destruct Hs as [E | E].
      * assert (forall z, s * z = z) as K by (intros; rewrite E; ring).
        pose proof (K x). pose proof (K head). pose proof (K tail).
        exists head, tail. split; [lra|]. intros y Hy. apply wave_fan; [exact L|]. rewrite (K y). lra.
      * assert (forall z, s * z = - z) as K by (intros; rewrite E; ring).
        pose proof (K x). pose proof (K head). pose proof (K tail).
        exists tail, head. split; [lra|]. intros y Hy. apply wave_fan; [exact L|]. rewrite (K y). lra.
Qed.

Lemma wave_jump x : x = head \/ x = tail -> jump_at g d wave x.
Proof.
  intros Hx. pose proof order as (O1 & O2 & O3).
  assert (head = tail -> jump_at g d wave tail) as Single.
  { intros E. destruct (Rlt_dec (height q) hM) as [L|L].
    - apply (jump_side g d s _ (fun _ => q) (fun _ => middle_of q d hM uM) tail Hs).
      + exists 1. split; [lra|]. intros y Hy. apply wave_outside. rewrite E. lra.
      + exists 1. split; [lra|]. intros y Hy. apply wave_inside. lra.
      + apply constant_state. exact Hq.
      + apply constant_solution.
      + exact Hq.
      + exact HhM.
      + intros c. pose proof (shock_jump g q d s Hg Hq Hs hM uM L HuM c) as J. unfold tail. destruct (Rlt_dec (height q) hM); [exact J|lra].
      + pose proof (shock_dissipates g q d s Hg Hq Hs hM uM L HuM) as J. unfold tail. destruct (Rlt_dec (height q) hM); [exact J|lra].
      + right. unfold wave. destruct (Rlt_dec (s * tail) (s * head)); [lra|]. destruct (Rlt_dec (height q) hM); [reflexivity|lra].
    - assert (hM <= height q) as L' by lra.
      pose proof (fan_head g q d s Hg Hq Hs) as FH. rewrite <- (head_fan L') in FH.
      pose proof (fan_tail g q d s Hg Hs hM uM ltac:(lra) HuM) as FT. rewrite <- (tail_fan L') in FT.
      assert (middle_of q d hM uM = q) as M by (rewrite <- FT, <- E; exact FH).
      apply (jump_continuous g d s _ (fun _ => q) (fun _ => middle_of q d hM uM) tail Hs).
      + exists 1. split; [lra|]. intros y Hy. apply wave_outside. rewrite E. lra.
      + exists 1. split; [lra|]. intros y Hy. apply wave_inside. lra.
      + apply constant_state. exact Hq.
      + apply constant_solution.
      + exact Hq.
      + symmetry. exact M.
      + rewrite wave_fan by (auto; rewrite E; lra). rewrite <- E. exact FH. }
  destruct (Rlt_dec (s * head) (s * tail)) as [HT|HT].
  2:{ assert (head = tail) as E by (apply Rmult_eq_reg_l with s; [lra | destruct Hs; lra]).
      assert (x = tail) as -> by (destruct Hx; congruence). apply Single. exact E. }
  assert (hM <= height q) as L.
  { destruct (Rle_dec hM (height q)); [assumption|]. exfalso. unfold head, tail in HT. destruct (Rlt_dec (height q) hM); lra. }
  pose proof (fan_head g q d s Hg Hq Hs) as FH. rewrite <- (head_fan L) in FH.
  pose proof (fan_tail g q d s Hg Hs hM uM ltac:(lra) HuM) as FT. rewrite <- (tail_fan L) in FT.
  destruct Hx as [-> | ->].
  - apply (jump_continuous g d s _ (fun _ => q) (fan g q d s) head Hs).
    + exists 1. split; [lra|]. intros y Hy. apply wave_outside. lra.
    + exists (s * tail - s * head). split; [lra|]. intros y Hy. apply wave_fan; [exact L|lra].
    + apply constant_state. exact Hq.
    + apply fan_smooth; auto.
    + exact Hq.
    + symmetry. exact FH.
    + rewrite wave_fan by (auto; lra). exact FH.
  - apply (jump_continuous g d s _ (fan g q d s) (fun _ => middle_of q d hM uM) tail Hs).
    + exists (s * tail - s * head). split; [lra|]. intros y Hy. apply wave_fan; [exact L|lra].
    + exists 1. split; [lra|]. intros y Hy. apply wave_inside. lra.
    + apply fan_smooth; auto.
    + apply constant_solution.
    + apply fan_positive; [exact L|lra].
    + exact FT.
    + apply wave_fan; [exact L|lra].
Qed.

(** The head is sharp. *)
Lemma wave_tight : hM <> height q -> forall e, 0 < e ->
  exists x, s * head < s * x < s * head + e /\ s * x < s * uM /\ wave x <> q.
Proof.
  intros N e He. pose proof order as (O1 & O2 & O3).
  destruct (Rlt_dec (height q) hM) as [L|L].
  - set (y := s * head + Rmin e (s * uM - s * head) / 2).
    assert (0 < Rmin e (s * uM - s * head)) as P by (apply Rmin_glb_lt; lra).
    pose proof (Rmin_l e (s * uM - s * head)). pose proof (Rmin_r e (s * uM - s * head)).
    assert (s * (s * y) = y) as Y by (rewrite <- Rmult_assoc, (ss s Hs); ring).
    exists (s * y). rewrite Y. split; [unfold y; lra|]. split; [unfold y; lra|].
    assert (tail = head) as TH by (unfold tail, head; destruct (Rlt_dec (height q) hM); [reflexivity|lra]).
    rewrite wave_inside by (rewrite Y, TH; unfold y; lra). intros E. apply N. rewrite <- E. reflexivity.
  - specialize (O3 ltac:(lra)).
    set (y := s * head + Rmin e (s * tail - s * head) / 2).
    assert (0 < Rmin e (s * tail - s * head)) as P by (apply Rmin_glb_lt; lra).
    pose proof (Rmin_l e (s * tail - s * head)). pose proof (Rmin_r e (s * tail - s * head)).
    assert (s * (s * y) = y) as Y by (rewrite <- Rmult_assoc, (ss s Hs); ring).
    exists (s * y). rewrite Y. split; [unfold y; lra|]. split; [unfold y; lra|].
    rewrite wave_fan by (try rewrite Y; unfold y; lra). intros E.
    assert (speed_of d (fan g q d s (s * y)) = speed_of d q) as V by (rewrite E; reflexivity).
    assert (0 < height (fan g q d s (s * y))) as F by (rewrite E; exact Hq).
    unfold fan in V, F. rewrite prim_height in F. rewrite prim_speed in V by exact F.
    unfold fan_speed, fan_sound in V. pose proof (ss s Hs) as Hss.
    assert (s * y = head) as C.
    { rewrite (head_fan ltac:(lra)). rewrite <- V at 1.
      replace (s * y + s * (s * (speed_of d q + s * (2 * sqrt (g * height q)) - s * y) / 3))
        with (s * y + s * s * (speed_of d q + s * (2 * sqrt (g * height q)) - s * y) / 3) in V by field.
      rewrite Hss in V. replace (s * y + s * (s * (speed_of d q + s * (2 * sqrt (g * height q)) - s * y) / 3))
        with (s * y + s * s * (speed_of d q + s * (2 * sqrt (g * height q)) - s * y) / 3) by field. rewrite Hss. lra. }
    assert (y = s * head) by (rewrite <- C, Y; reflexivity). unfold y in *. lra.
Qed.
End Wave.

(** ** The whole solution *)

Lemma one_sign : 1 = 1 \/ 1 = -1.
Proof. left. reflexivity. Qed.
Lemma minus_sign : -1 = 1 \/ -1 = -1.
Proof. right. reflexivity. Qed.

Section Whole.
Variables (g : R) (l r : water) (d : bool) (hM uM : R).
Hypothesis Hg : 0 < g.
Hypothesis Hl : 0 < height l.
Hypothesis Hr : 0 < height r.
Hypothesis HhM : 0 < hM.
Hypothesis HuL : uM = speed_of d l - 1 * psi g l hM.
Hypothesis HuR : uM = speed_of d r - -1 * psi g r hM.

Let lhead := head g l d 1 hM uM.
Let ltail := tail g l d 1 hM uM.
Let rhead := head g r d (-1) hM uM.
Let rtail := tail g r d (-1) hM uM.

Definition solution (x : R) : water := if Rle_dec x uM then wave g l d 1 hM uM x else wave g r d (-1) hM uM x.

Lemma orders : lhead <= ltail /\ ltail < uM /\ uM < rtail /\ rtail <= rhead.
Proof.
  pose proof (order g l d 1 hM uM Hg Hl one_sign HhM HuL) as (A1 & A2 & _).
  pose proof (order g r d (-1) hM uM Hg Hr minus_sign HhM HuR) as (B1 & B2 & _).
  fold lhead ltail in A1, A2. fold rhead rtail in B1, B2. repeat split; lra.
Qed.

Lemma solution_left x : x < uM -> near x (fun y => solution y = wave g l d 1 hM uM y).
Proof.
  intros H. exists (x - 1), uM. split; [lra|]. intros y Hy. unfold solution. destruct (Rle_dec y uM); [reflexivity|lra].
Qed.

Lemma solution_right x : uM < x -> near x (fun y => solution y = wave g r d (-1) hM uM y).
Proof.
  intros H. exists uM, (x + 1). split; [lra|]. intros y Hy. unfold solution. destruct (Rle_dec y uM); [lra|reflexivity].
Qed.

Lemma contact_jump : jump_at g d solution uM.
Proof.
  pose proof orders as (O1 & O2 & O3 & O4).
  apply (jump_intro g d _ (fun _ => middle_of l d hM uM) (fun _ => middle_of r d hM uM)).
  - exists ltail. split; [exact O2|]. intros y Hy. unfold solution. destruct (Rle_dec y uM); [|lra].
    apply wave_inside; auto using one_sign. fold ltail. lra.
  - exists rtail. split; [exact O3|]. intros y Hy. unfold solution. destruct (Rle_dec y uM); [lra|].
    apply wave_inside; auto using minus_sign. fold rtail. lra.
  - apply constant_solution.
  - apply constant_solution.
  - exact HhM.
  - exact HhM.
  - intros c. unfold middle_of. rewrite !transport_prim, !amount_prim. destruct c; ring.
  - unfold middle_of. rewrite !mechanical_flux_prim, !mechanical_prim by exact HhM. right. ring.
  - left. unfold solution. destruct (Rle_dec uM uM); [|lra]. apply wave_inside; auto using one_sign. fold ltail. lra.
Qed.

Lemma solution_riemann : riemann_solution g d l r solution.
Proof.
  pose proof orders as (O1 & O2 & O3 & O4).
  split; [|split].
  - exists [lhead; ltail; uM; rtail; rhead]. split.
    + intros x N. destruct (Rtotal_order x uM) as [H|[-> |H]].
      * apply (conserved_near g d _ _ x (solution_left x H)). apply wave_smooth; auto using one_sign; intros E; apply N; symmetry in E.
        -- left. exact E.
        -- right. left. exact E.
      * exfalso. apply N. cbn. auto.
      * apply (conserved_near g d _ _ x (solution_right x H)). apply wave_smooth; auto using minus_sign; intros E; apply N; symmetry in E.
        -- right. right. right. right. left. exact E.
        -- right. right. right. left. exact E.
    + intros x [<- | [<- | [<- | [<- | [<- | []]]]]].
      * apply (jump_local g d _ _ _ (solution_left lhead ltac:(lra))). apply wave_jump; auto using one_sign.
      * apply (jump_local g d _ _ _ (solution_left ltail ltac:(lra))). apply wave_jump; auto using one_sign.
      * apply contact_jump.
      * apply (jump_local g d _ _ _ (solution_right rtail ltac:(lra))). apply wave_jump; auto using minus_sign.
      * apply (jump_local g d _ _ _ (solution_right rhead ltac:(lra))). apply wave_jump; auto using minus_sign.
  - exists lhead, rhead. split; intros x H; unfold solution; (destruct (Rle_dec x uM); [try lra|try lra]).
    + apply wave_outside. fold lhead. lra.
    + apply wave_outside. fold rhead. lra.
  - intros x. unfold solution. destruct (Rle_dec x uM); apply wave_positive; auto using one_sign, minus_sign.
Qed.

Lemma left_zero : 0 <= uM -> LeftSide g d l hM uM = wave g l d 1 hM uM 0.
Proof.
  intros _. pose proof (order g l d 1 hM uM Hg Hl one_sign HhM HuL) as (A1 & A2 & _).
  unfold LeftSide, wave. cbv zeta. fold (cross_speed d l). unfold head, tail in *. unfold shock_speed in *.
  destruct (Rlt_dec (height l) hM) as [L|L].
  - rewrite !Rmult_1_l. destruct (Rlt_dec 0 _); reflexivity.
  - repeat rewrite Rmult_1_l. repeat rewrite Rmult_1_l in A1. repeat rewrite Rmult_1_l in A2.
    destruct (Rlt_dec 0 (speed_of d l - sqrt (g * height l))) as [B|B]; [reflexivity|].
    destruct (Rlt_dec (uM - sqrt (g * hM)) 0) as [C|C]; [reflexivity|].
    pose proof (fan_sound_between g l d 1 one_sign hM uM 0 ltac:(lra) HuL ltac:(lra)) as F.
    pose proof (sqrt_pos (g * hM)). unfold fan, fan_height, fan_speed, prim.
    set (c := fan_sound g l d 1 0) in *.
    assert (speed_of d l + 2 * sqrt (g * height l) = 3 * c) as -> by (unfold c, fan_sound; field).
    replace (3 * c * (3 * c) / (9 * g)) with (c * c / g) by (field; lra).
    replace (g * (c * c / g)) with (c * c) by (field; lra). rewrite sqrt_square by lra.
    replace (speed_of d l + 2 * (sqrt (g * height l) - c)) with (0 + 1 * c); [reflexivity|].
    unfold c, fan_sound. field.
Qed.

Lemma right_zero : RightSide g d r hM uM = wave g r d (-1) hM uM 0.
Proof.
  pose proof (order g r d (-1) hM uM Hg Hr minus_sign HhM HuR) as (A1 & A2 & _).
  unfold RightSide, wave. cbv zeta. fold (cross_speed d r). unfold head, tail in *. unfold shock_speed in *.
  destruct (Rlt_dec (height r) hM) as [L|L].
  - replace ((height r * speed_of d r - hM * uM) / (height r - hM)) with ((hM * uM - height r * speed_of d r) / (hM - height r)) by (field; lra).
    set (S := (hM * uM - height r * speed_of d r) / (hM - height r)).
    destruct (Rlt_dec S 0), (Rlt_dec (-1 * 0) (-1 * S)); try reflexivity; lra.
  - set (a := sqrt (g * height r)) in *. set (b := sqrt (g * hM)) in *.
    destruct (Rlt_dec (speed_of d r + a) 0) as [B|B]; destruct (Rlt_dec (-1 * 0) (-1 * (speed_of d r - -1 * a))) as [B'|B']; try reflexivity; try lra.
    destruct (Rlt_dec 0 (uM + b)) as [C|C]; destruct (Rlt_dec (-1 * (uM - -1 * b)) (-1 * 0)) as [C'|C']; try reflexivity; try lra.
    pose proof (fan_sound_between g r d (-1) minus_sign hM uM 0 ltac:(lra) HuR ltac:(fold b; lra)) as F. fold b in F.
    pose proof (sqrt_pos (g * hM)) as P. fold b in P. unfold fan, fan_height, fan_speed, prim.
    set (c := fan_sound g r d (-1) 0) in *.
    assert (speed_of d r - 2 * a = -3 * c) as -> by (unfold c, fan_sound; fold a; field).
    replace (-3 * c * (-3 * c) / (9 * g)) with (c * c / g) by (field; lra).
    replace (g * (c * c / g)) with (c * c) by (field; lra). rewrite sqrt_square by lra.
    replace (speed_of d r - 2 * (a - c)) with (0 + -1 * c); [reflexivity|].
    unfold c, fan_sound. fold a. field.
Qed.

Lemma solve_from : SolveFrom g d l r hM uM = Some (solution 0).
Proof.
  unfold SolveFrom, solution.
  destruct (Rlt_dec 0 (height l)); [|contradiction]. destruct (Rlt_dec 0 (height r)); [|contradiction].
  destruct (Rlt_dec 0 hM); [|contradiction]. destruct (Rle_dec 0 uM); f_equal; [apply left_zero; assumption | apply right_zero].
Qed.

Lemma signals_from : SignalsFrom g d l r hM uM = Some (lhead, rhead).
Proof.
  unfold SignalsFrom. destruct (Rlt_dec 0 (height l)); [|contradiction]. destruct (Rlt_dec 0 (height r)); [|contradiction].
  assert (height l * speed_of d l = along d l) as E1 by (unfold speed_of; field; lra).
  assert (height r * speed_of d r = along d r) as E2 by (unfold speed_of; field; lra).
  f_equal. f_equal; unfold lhead, rhead, head, shock_speed.
  - destruct (Rle_dec hM (height l)), (Rlt_dec (height l) hM); try lra. rewrite E1. reflexivity.
  - destruct (Rle_dec hM (height r)), (Rlt_dec (height r) hM); try lra. rewrite E2. field. lra.
Qed.
End Whole.
