(** Ghost cells. *)
From Coq Require Import List Reals ZArith Bool Arith Lia Lra Psatz.
From Verif Require Import MultiBlockModel MultiBlockSpec MultiBlockProofs.
Import ListNotations.
Local Open Scope R_scope.

Lemma mean_app h l m a b : 0 < h -> a < b -> b <= INR (length l) * h -> mean h (l ++ m) a b = mean h l a b.
Proof.
  intros H Hab Hb. rewrite !mean_left by assumption. rewrite !left_of_app. rewrite (left_of_below h m b) by (cbn; assumption). rewrite (left_of_below h m a) by (cbn; lra). f_equal. ring.
Qed.
Lemma mean_length h (f : nat -> R) n m a b : 0 < h -> a < b -> b <= INR n * h -> b <= INR m * h -> mean h (map f (seq 0 n)) a b = mean h (map f (seq 0 m)) a b.
Proof.
  intros H Hab. assert (W : forall n m, (n <= m)%nat -> b <= INR n * h -> mean h (map f (seq 0 m)) a b = mean h (map f (seq 0 n)) a b).
  { clear n m. intros n m L Hn. replace m with (n + (m - n))%nat by lia. rewrite seq_app, map_app. apply mean_app; try assumption. rewrite map_length, seq_length. exact Hn. }
  intros Hn Hm. destruct (le_lt_dec n m) as [L|L]; [symmetry; apply W; assumption|apply W; [lia|assumption]].
Qed.

Lemma ceil_spec x : IZR (ceil x) - 1 < x <= IZR (ceil x).
Proof. unfold ceil. rewrite opp_IZR. destruct (base_Int_part (- x)). lra. Qed.
Lemma ceil_INR n : ceil (INR n) = Z.of_nat n.
Proof.
  destruct (ceil_spec (INR n)) as [A B]. rewrite INR_IZR_INZ in A, B. assert (ceil (INR n) - 1 < Z.of_nat n)%Z by (apply lt_IZR; rewrite minus_IZR, INR_IZR_INZ in *; exact A).
  rewrite <- INR_IZR_INZ in B. rewrite INR_IZR_INZ in B at 1. apply le_IZR in B. lia.
Qed.

(** The mirror width covers the ghost cells. *)
Definition no_common_end (gcw : nat) (dx_from dx_to : R) : Prop := dx_from < dx_to -> forall k, INR gcw * dx_to <> INR k * dx_from.
Lemma width_fits gcw dx_from dx_to : (0 < gcw)%nat -> 0 < dx_from -> 0 < dx_to -> no_common_end gcw dx_from dx_to ->
  let w := ceil (INR gcw * dx_to / dx_from) in (0 < w)%Z /\ fits gcw dx_to (Z.to_nat w) dx_from /\ INR gcw * dx_to <= INR (Z.to_nat w) * dx_from.
Proof.
  intros Hg Hf Ht Hn w. destruct (ceil_spec (INR gcw * dx_to / dx_from)) as [A B]. fold w in A, B.
  assert (G : 0 < INR gcw) by (apply lt_0_INR; exact Hg).
  assert (P : 0 < INR gcw * dx_to / dx_from) by (apply Rdiv_lt_0_compat; nra).
  assert (W : (0 < w)%Z) by (apply lt_IZR; lra).
  assert (C : INR gcw * dx_to <= INR (Z.to_nat w) * dx_from).
  { rewrite (INR_IZR_INZ (Z.to_nat w)), Z2Nat.id by lia. replace (INR gcw * dx_to) with (INR gcw * dx_to / dx_from * dx_from) by (field; lra). apply Rmult_le_compat_r; lra. }
  split; [exact W|]. split; [|exact C]. destruct (Rtotal_order dx_from dx_to) as [L|[E|L]].
  - left. split; [exact L|]. specialize (Hn L (Z.to_nat w)). lra.
  - right. right. split; [symmetry; exact E|]. subst dx_to. apply Nat2Z.inj. rewrite Z2Nat.id by lia. rewrite <- ceil_INR. unfold w. f_equal. field. lra.
  - right. left. split; [exact L|exact C].
Qed.

Lemma seq_S_map n : seq 0 (S n) = 0%nat :: map S (seq 0 n).
Proof. cbn [seq]. rewrite seq_shift. reflexivity. Qed.
Lemma rev_seq_map {A} (f : nat -> A) n : rev (map f (seq 0 n)) = map (fun k => f (n - 1 - k)%nat) (seq 0 n).
Proof.
  induction n as [|n IH]; [reflexivity|]. rewrite seq_S, map_app, rev_app_distr. cbn [map rev app Nat.add]. rewrite IH. change (seq 0 n ++ [n]) with (seq 0 n ++ [(0 + n)%nat]). rewrite <- seq_S, seq_S_map. cbn [map]. f_equal; [f_equal; lia|].
  rewrite map_map. apply map_ext_in. intros k Hk. apply in_seq in Hk. f_equal. lia.
Qed.
Lemma mirror_low (data : Z -> R) lo hi w : map data (cells (MakeMirrorBox (lo, hi) w 0)) = map (fun k => data (lo + Z.of_nat k)%Z) (seq 0 (Z.to_nat w)).
Proof. unfold MakeMirrorBox, cells. cbn [Nat.eqb]. rewrite map_map. replace (lo + w - 1 - lo + 1)%Z with w by lia. reflexivity. Qed.
Lemma mirror_high (data : Z -> R) lo hi w : rev (map data (cells (MakeMirrorBox (lo, hi) w 1))) = map (fun k => data (hi - Z.of_nat k)%Z) (seq 0 (Z.to_nat w)).
Proof.
  unfold MakeMirrorBox, cells. cbn [Nat.eqb]. rewrite map_map. replace (hi - (hi - w + 1) + 1)%Z with w by lia. rewrite (rev_seq_map (fun k => data (hi - w + 1 + Z.of_nat k)%Z)).
  apply map_ext_in. intros k Hk. apply in_seq in Hk. f_equal. lia.
Qed.
Lemma mirror_length (data : Z -> R) box w side : length (map data (cells (MakeMirrorBox box w side))) = Z.to_nat w.
Proof. destruct box as [lo hi]. unfold MakeMirrorBox, cells. rewrite map_length. destruct (Nat.eqb side 1); rewrite map_length, seq_length; f_equal; lia. Qed.

Lemma ghost_exact (data : Z -> R) plo phi tlo thi gcw dx_from dx_to m n :
  0 < dx_from -> 0 < dx_to -> (m < gcw)%nat -> INR gcw * dx_to <= INR n * dx_from -> no_common_end gcw dx_from dx_to ->
  ghost_value data (plo, phi) (tlo, thi) gcw dx_from dx_to 1 (tlo - 1 - Z.of_nat m) =
    Some (mean dx_from (map (fun k => data (phi - Z.of_nat k)%Z) (seq 0 n)) (INR m * dx_to) (INR (S m) * dx_to)) /\
  ghost_value data (plo, phi) (tlo, thi) gcw dx_from dx_to 0 (thi + 1 + Z.of_nat m) =
    Some (mean dx_from (map (fun k => data (plo + Z.of_nat k)%Z) (seq 0 n)) (INR m * dx_to) (INR (S m) * dx_to)).
Proof.
  intros Hf Ht Hm Hn Hc. destruct (width_fits gcw dx_from dx_to ltac:(lia) Hf Ht Hc) as (W & F & C).
  assert (M : INR (S m) * dx_to <= INR gcw * dx_to) by (apply Rmult_le_compat_r; [lra|apply le_INR; lia]).
  assert (Q : INR m * dx_to < INR (S m) * dx_to) by (rewrite S_INR; nra).
  unfold ghost_value, ghost_values, mirror_cells. set (w := ceil (INR gcw * dx_to / dx_from)) in *. split.
  - destruct (interpolate_exact gcw dx_to (map data (cells (MakeMirrorBox (plo, phi) w 1))) dx_from 1 Ht Hf ltac:(rewrite mirror_length; exact F)) as (l & E & L & V).
    rewrite E. unfold ghost_box, Flip, MakeMirrorBox, MakeGhostBox. cbn [Nat.eqb fst].
    replace (Z.to_nat (tlo - 1 - Z.of_nat m - (tlo - Z.of_nat gcw))) with (gcw - 1 - m)%nat by lia. destruct (V m Hm) as [V1 _]. rewrite V1 by reflexivity. f_equal.
    rewrite mirror_high. apply mean_length; lra.
  - destruct (interpolate_exact gcw dx_to (map data (cells (MakeMirrorBox (plo, phi) w 0))) dx_from 0 Ht Hf ltac:(rewrite mirror_length; exact F)) as (l & E & L & V).
    rewrite E. unfold ghost_box, Flip, MakeMirrorBox, MakeGhostBox. cbn [Nat.eqb fst].
    replace (Z.to_nat (thi + 1 + Z.of_nat m - (thi + 1))) with m by lia. destruct (V m Hm) as [_ V0]. rewrite V0 by discriminate. f_equal.
    rewrite mirror_low. apply mean_length; lra.
Qed.

(** A common end of the ghost cells and the mirror cells *)
Lemma ghost_overrun (data : Z -> R) box_from box_to gcw dx_from dx_to side j k : (0 < gcw)%nat -> 0 < dx_from -> dx_from < dx_to -> INR gcw * dx_to = INR k * dx_from ->
  ghost_value data box_from box_to gcw dx_from dx_to side j = None.
Proof.
  intros Hg Hf L C. assert (W : Z.to_nat (ceil (INR gcw * dx_to / dx_from)) = k).
  { rewrite C. replace (INR k * dx_from / dx_from) with (INR k) by (field; lra). rewrite ceil_INR. apply Nat2Z.id. }
  unfold ghost_value, ghost_values, InterpolateStates. destruct (Rlt_dec dx_from dx_to) as [_|N]; [|lra]. unfold mirror_cells.
  assert (O : forall s, length s = k -> InterpolateStates_Greater gcw dx_to s dx_from = None) by (intros s Hs; apply greater_overrun; try assumption; rewrite Hs; lra).
  destruct (Nat.eqb side 1); rewrite O; try reflexivity; rewrite ?rev_length, mirror_length; exact W.
Qed.

(** The mean of a constant, bounds *)
Lemma left_of_const h c x : 0 < h -> forall n k, INR k * h <= x <= INR (k + n) * h -> left_of h k (repeat c n) x = (x - INR k * h) * c.
Proof.
  intros H. induction n as [|n IH]; intros k Hx; cbn [repeat left_of].
  - rewrite Nat.add_0_r in Hx. replace (x - INR k * h) with 0 by lra. ring.
  - destruct (Rle_dec (INR (S k) * h) x) as [A|A].
    + rewrite IH by (replace (S k + n)%nat with (k + S n)%nat by lia; lra). rewrite S_INR in *. replace (clamp h (x - INR k * h)) with h; [ring|]. unfold clamp, Rmax, Rmin. repeat (destruct (Rle_dec _ _)); lra.
    + rewrite left_of_below by (try exact H; lra). rewrite S_INR in A. replace (clamp h (x - INR k * h)) with (x - INR k * h); [ring|]. unfold clamp, Rmax, Rmin. repeat (destruct (Rle_dec _ _)); lra.
Qed.
Lemma mean_const h c n a b : 0 < h -> 0 <= a -> a < b -> b <= INR n * h -> mean h (repeat c n) a b = c.
Proof. intros H Ha Hab Hb. rewrite mean_left by assumption. rewrite !left_of_const by (try exact H; cbn; lra). field. lra. Qed.
Lemma content_mono h lo hi l a b : 0 < h -> a <= b -> (forall v, In v l -> lo <= v <= hi) ->
  forall k, content h k (repeat lo (length l)) a b <= content h k l a b <= content h k (repeat hi (length l)) a b.
Proof.
  intros H Hab. induction l as [|v l IH]; intros B k; [cbn; lra|]. cbn [length repeat content]. specialize (IH (fun x Hx => B x (or_intror Hx)) (S k)). pose proof (B v (or_introl eq_refl)).
  assert (0 <= overlap a b (INR k * h) (INR (S k) * h)) by (unfold overlap; apply Rmax_l). nra.
Qed.
Lemma mean_bounds h lo hi l a b : 0 < h -> 0 <= a -> a < b -> b <= INR (length l) * h -> (forall v, In v l -> lo <= v <= hi) -> lo <= mean h l a b <= hi.
Proof.
  intros H Ha Hab Hb B. destruct (content_mono h lo hi l a b H ltac:(lra) B 0%nat) as [A C].
  pose proof (mean_const h lo (length l) a b H Ha Hab Hb) as E1. pose proof (mean_const h hi (length l) a b H Ha Hab Hb) as E2. unfold mean in *.
  rewrite <- E1, <- E2 at 1. assert (0 < / (b - a)) by (apply Rinv_0_lt_compat; lra). unfold Rdiv. split; apply Rmult_le_compat_r; lra.
Qed.

(** Conservation: the resampled cells hold together what the cells below them held. *)
Fixpoint sum_to (n : nat) (f : nat -> R) : R := match n with O => 0 | S n' => sum_to n' f + f n' end.
Lemma mean_total h l D n : 0 < h -> 0 < D -> sum_to n (fun m => D * mean h l (INR m * D) (INR (S m) * D)) = content h 0 l 0 (INR n * D).
Proof.
  intros H HD. rewrite content_left by (try exact H; pose proof (pos_INR n); nra). rewrite (left_of_below h l 0) by (try exact H; cbn; lra).
  induction n as [|n IH]; cbn [sum_to]; [rewrite (left_of_below h l (INR 0 * D)) by (try exact H; cbn; lra); ring|]. rewrite IH. rewrite mean_left by (try exact H; rewrite S_INR; nra). rewrite S_INR. field. lra.
Qed.
