(** Proofs about the stencils of width h (C102 to C107). *)
From Coq Require Import List Reals ZArith Bool Lra Lia Psatz FunctionalExtensionality.
From Verif Require Import MdLimiterModel MdLimiterSpec CutCellModel CutCellProofs HGridModel HGridSpec.
Import ListNotations.
Local Open Scope R_scope.

Lemma affine_line : forall d a g t s, affine a g (point d t s) = a + tangential d g * s + coordinate d g * t.
Proof. intros [| d] a [g1 g2] t s; unfold affine, point, tangential, coordinate; cbn [fst snd]; ring. Qed.

Section Values.
Variables S K : Type.
Variable extract : S -> K -> R.
Variable complete : (K -> R) -> S.

(** The cell i holds the value and the gradients of the linear functions. *)
Definition exact_in (c : cells S K) (geom : geometry) (dx : vec) (a : K -> R) (g : K -> vec) (i : index) : Prop :=
  forall k, extract (states _ _ c i) k = affine (a k) (g k) (position i (volume_centroid geom i) dx)
            /\ grad_x _ _ c i k = fst (g k) /\ grad_y _ _ c i k = snd (g k).

Lemma value_exact : forall c geom dx a g i x k, exact_in c geom dx a g i -> value_at S K extract c geom dx i x k = affine (a k) (g k) x.
Proof.
  intros c geom dx a g i x k H. destruct (H k) as (E & Ex & Ey). unfold value_at, ApplyGradient, vsub, GetAbsoluteVolumeCentroid. cbn [fst snd].
  rewrite E, Ex, Ey. unfold affine, position. cbn [fst snd]. ring.
Qed.

Lemma grad_exact : forall c geom dx a g i d k, exact_in c geom dx a g i -> grad_dir S K d c i k = coordinate d (g k).
Proof. intros c geom dx a g i [| d] k H; destruct (H k) as (_ & Ex & Ey); [exact Ex | exact Ey]. Qed.
End Values.

(** ** Integrals of linear functions *)

Lemma integral_line : forall m s x0 a b, integral (fun t => m + s * (t - x0)) a b ((b - a) * (m + s * ((a + b) / 2 - x0))).
Proof.
  intros m s x0 a b. exists (fun t => (m - s * x0) * t + s / 2 * (t * t)). split.
  - intro x. replace (m + s * (x - x0)) with ((m - s * x0) * 1 + s / 2 * (1 * x + x * 1)) by field.
    apply (derivable_pt_lim_plus (fun t => (m - s * x0) * t) (fun t => s / 2 * (t * t))).
    + apply (derivable_pt_lim_scal (fun t => t)). apply derivable_pt_lim_id.
    + apply (derivable_pt_lim_scal (fun t => t * t)). apply (derivable_pt_lim_mult (fun t => t) (fun t => t)); apply derivable_pt_lim_id.
  - field.
Qed.

Lemma integral_ext : forall f f' a b v, (forall t, f t = f' t) -> integral f a b v -> integral f' a b v.
Proof. intros f f' a b v E (P & D & H). exists P. split; [intro x; rewrite <- E; apply D | exact H]. Qed.

(** ** Reference states *)

Lemma total_ext : forall f f' l, (forall s, In s l -> f s = f' s) -> total f l = total f' l.
Proof.
  intros f f' l H. induction l as [| s l IH]; [reflexivity |]. cbn [total fold_right]. rewrite (H s (or_introl eq_refl)).
  fold (total f l) (total f' l). rewrite IH; [reflexivity | intros q Hq; apply H; right; exact Hq].
Qed.

Lemma total_lin : forall f g h (x y : R) l, (forall s, In s l -> h s = x * f s + y * g s) -> total h l = x * total f l + y * total g l.
Proof.
  intros f g h x y l H. induction l as [| s l IH]; [cbn; ring |]. cbn [total fold_right]. rewrite (H s (or_introl eq_refl)).
  fold (total f l) (total g l) (total h l). rewrite IH; [ring | intros q Hq; apply H; right; exact Hq].
Qed.

Lemma visited_positive_visited : forall l, (forall s, In s l -> 0 <= volume_of s) -> visited_positive l = visited l.
Proof.
  intros l. induction l as [| s l IH]; intro H; [reflexivity |]. cbn [visited visited_positive].
  pose proof (H s (or_introl eq_refl)). destruct (Rlt_dec 0 (volume_of s)); destruct (Req_EM_T (volume_of s) 0); try lra; [| reflexivity].
  f_equal. apply IH. intros q Hq. apply H. right. exact Hq.
Qed.

Lemma visited_all : forall l r, (forall s, In s l -> 0 < volume_of s) -> (forall s, In s r -> volume_of s = 0) -> visited (l ++ r) = l.
Proof.
  intros l r. induction l as [| s l IH]; intros Hl Hr.
  - destruct r as [| s r]; [reflexivity |]. cbn [app visited]. rewrite (Hr s (or_introl eq_refl)). destruct (Req_EM_T 0 0); [reflexivity | lra].
  - cbn [app visited]. pose proof (Hl s (or_introl eq_refl)). destruct (Req_EM_T (volume_of s) 0); [lra |]. f_equal.
    apply IH; [intros q Hq; apply Hl; right; exact Hq | exact Hr].
Qed.

Lemma total_app : forall f l r, total f (l ++ r) = total f l + total f r.
Proof. intros f l r. induction l as [| s l IH]; [cbn [app]; change (total f []) with 0; ring |]. change (f s + total f (l ++ r) = (f s + total f l) + total f r). rewrite IH. ring. Qed.

Lemma total_zero : forall f r, (forall s, In s r -> f s = 0) -> total f r = 0.
Proof.
  intros f r H. induction r as [| s r IH]; [reflexivity |]. cbn [total fold_right]. fold (total f r). rewrite (H s (or_introl eq_refl)), IH; [ring |].
  intros q Hq. apply H. right. exact Hq.
Qed.

Lemma total_positive : forall l, l <> [] -> (forall s, In s l -> 0 < volume_of s) -> 0 < total volume_of l.
Proof.
  intros l. induction l as [| s l IH]; intros N H; [contradiction |]. cbn [total fold_right]. fold (total volume_of l).
  pose proof (H s (or_introl eq_refl)). destruct l as [| q l]; [cbn; lra |].
  assert (0 < total volume_of (q :: l)) by (apply IH; [discriminate | intros p Hp; apply H; right; exact Hp]). lra.
Qed.

Lemma total_scale : forall f (x : R) l, total (fun s => x * f s) l = x * total f l.
Proof. intros f x l. rewrite (total_lin f f (fun s => x * f s) x 0 l) by (intros; ring). ring. Qed.

(** ** Conservation *)

Lemma update2_content : forall k prev fL fR fB alpha bL bR v,
  (0 < alpha \/ (alpha = 0 /\ bL = 0 /\ bR = 0)) -> update2 k prev fL fR fB alpha bL bR = Some v ->
  alpha * v = alpha * prev + k * (bL * fL - bR * fR - (bL - bR) * fB).
Proof.
  intros k prev fL fR fB alpha bL bR v H E. unfold update2 in E. destruct (Rlt_dec 0 alpha) as [P | P].
  - destruct (Req_EM_T bL bR) as [-> | N].
    + destruct (Req_EM_T alpha bR) as [-> | N]; [| discriminate]. injection E as <-. ring.
    + injection E as <-. field. lra.
  - injection E as <-. destruct H as [H | (-> & -> & ->)]; [contradiction | ring].
Qed.
