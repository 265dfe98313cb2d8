(** Proofs for C149: the centre line and the file of points. *)
From Coq Require Import List Reals Bool Lra Lia Psatz.
From Verif Require Import TubeModel TubeSpec TubeProofs.
Import ListNotations.
Local Open Scope R_scope.

Lemma dot_scale_l k a b : vdot (vscale k a) b = k * vdot a b.
Proof. unfold vdot, vscale. cbn. ring. Qed.
Lemma dot_scale_r k a b : vdot a (vscale k b) = k * vdot a b.
Proof. unfold vdot, vscale. cbn. ring. Qed.
Lemma dot_add a b c : vdot (vadd a b) c = vdot a c + vdot b c.
Proof. unfold vdot, vadd. cbn. ring. Qed.
Lemma dot_comm a b : vdot a b = vdot b a.
Proof. unfold vdot. ring. Qed.
Lemma short g : vdot g g = 0 \/ vdot g g = 1 -> vdot g g <= 1.
Proof. intros [-> | ->]; lra. Qed.
(** |g| <= 1 and |h| = 0 or 1: g + h does not point against h *)
Lemma bisector g h : vdot g g <= 1 -> vdot h h = 0 \/ vdot h h = 1 -> 0 <= vdot (vadd g h) h.
Proof.
  intros Hg Hh. rewrite dot_add. destruct Hh as [Hh|Hh].
  - apply dot_zero in Hh. rewrite Hh. unfold vdot. cbn. lra.
  - assert (P : 0 <= vdot (vadd g h) (vadd g h)) by apply dot_pos.
    assert (E : vdot (vadd g h) (vadd g h) = vdot g g + 2 * vdot g h + vdot h h) by (unfold vdot, vadd; cbn; ring). lra.
Qed.
Lemma unit_dot v u h : unit_of v u -> 0 <= vdot v h -> 0 <= vdot u h.
Proof.
  intros [[_ ->] | (k & Hk & -> & _)] H; [unfold vdot; cbn; lra|]. rewrite dot_scale_l. apply Rmult_le_pos; lra.
Qed.
Lemma unit_sign v h n : unit_of v h -> 0 <= vdot n h -> 0 <= vdot n v.
Proof.
  intros [[E ->] | (k & Hk & -> & _)] H.
  - apply dot_zero in E. rewrite E. unfold vdot. cbn. lra.
  - rewrite dot_scale_r in H. destruct (Rle_dec 0 (vdot n v)) as [C|C]; [exact C|]. exfalso. assert (k * vdot n v < 0) by nra. lra.
Qed.
Lemma unit_reach v h s : unit_of v h -> exists t, vscale t h = vscale s v.
Proof.
  intros [[E ->] | (k & Hk & -> & _)].
  - apply dot_zero in E. exists 0. rewrite E. apply vec_eq; cbn; ring.
  - exists (s / k). apply vec_eq; cbn; field; lra.
Qed.

Lemma direction_fun pts i h h' : direction pts i h -> direction pts i h' -> h = h'.
Proof. intros H H'. apply heights_nth in H, H'. congruence. Qed.
Lemma direction_norm pts i h : direction pts i h -> vdot h h = 0 \/ vdot h h = 1.
Proof. intros (a & b & _ & _ & U). exact (unit_norm _ _ U). Qed.

Lemma axis_inside pts radius i a b s : 0 <= radius ->
  direction pts 0 up -> direction pts (length pts - 2) down ->
  nth_error pts i = Some a -> nth_error pts (S i) = Some b -> 0 <= s <= 1 ->
  in_segment pts radius i (vadd a (vscale s (vsub b a))).
Proof.
  intros Hr D0 Dl Ea Eb Hs.
  assert (Li : (S i < length pts)%nat) by (apply nth_error_Some; congruence).
  assert (ND : up <> down) by (intros C; injection C; lra).
  assert (L3 : (2 < length pts)%nat).
  { destruct (Nat.eq_dec (length pts) 2) as [E|E]; [|lia]. rewrite E in Dl. exfalso. apply ND. exact (direction_fun _ _ _ _ D0 Dl). }
  assert (exists h, direction pts i h) as [h Dh].
  { exists (normalized (vsub b a)). exists a, b. repeat split; try assumption. apply normalized_unit. }
  assert (exists n, cut pts i n /\ 0 <= vdot n h) as (n & Cn & Hn).
  { destruct i as [|[|i]].
    - exists up. split; [constructor|]. rewrite (direction_fun _ _ _ _ Dh D0). unfold vdot. cbn. lra.
    - exists (normalized (vadd up h)). split; [apply cut_second with h; [exact L3|exact Dh|apply normalized_unit]|].
      eapply unit_dot; [apply normalized_unit|]. apply bisector; [unfold vdot; cbn; lra|exact (direction_norm _ _ _ Dh)].
    - assert (exists g, direction pts (S i) g) as [g Dg].
      { destruct (nth_error pts (S i)) as [z|] eqn:Ez; [|apply nth_error_None in Ez; lia].
        exists (normalized (vsub a z)), z, a. repeat split; try assumption. apply normalized_unit. }
      exists (normalized (vadd g h)). split; [apply cut_inner with g h; [lia|exact Dg|exact Dh|apply normalized_unit]|].
      eapply unit_dot; [apply normalized_unit|]. apply bisector; [apply short; exact (direction_norm _ _ _ Dg)|exact (direction_norm _ _ _ Dh)]. }
  assert (exists m, cut pts (S i) m /\ 0 <= vdot m h) as (m & Cm & Hm).
  { destruct (Nat.eq_dec (S (S i)) (length pts)) as [E|E].
    - exists down. split; [now constructor|]. replace (length pts - 2)%nat with i in Dl by lia. rewrite (direction_fun _ _ _ _ Dh Dl). unfold vdot. cbn. lra.
    - assert (exists g, direction pts (S i) g) as [g Dg].
      { destruct (nth_error pts (S (S i))) as [z|] eqn:Ez; [|apply nth_error_None in Ez; lia].
        exists (normalized (vsub z b)), b, z. repeat split; try assumption. apply normalized_unit. }
      assert (B : forall k, k = h -> 0 <= vdot (vadd k g) h).
      { intros k ->. assert (C : vadd h g = vadd g h) by (apply vec_eq; cbn; ring). rewrite C.
        apply bisector; [apply short; exact (direction_norm _ _ _ Dg)|exact (direction_norm _ _ _ Dh)]. }
      destruct i as [|i].
      + exists (normalized (vadd up g)). split; [apply cut_second with g; [exact L3|exact Dg|apply normalized_unit]|].
        eapply unit_dot; [apply normalized_unit|]. apply B. exact (direction_fun _ _ _ _ D0 Dh).
      + exists (normalized (vadd h g)). split; [apply cut_inner with h g; [lia|exact Dh|exact Dg|apply normalized_unit]|].
        eapply unit_dot; [apply normalized_unit|]. now apply B. }
  assert (U : unit_of (vsub b a) h).
  { destruct Dh as (a' & b' & E1 & E2 & U). rewrite Ea in E1. rewrite Eb in E2. injection E1 as <-. injection E2 as <-. exact U. }
  exists a, b, h, n, m. repeat (split; [assumption|]).
  pose proof (unit_sign _ _ _ U Hn) as Pn. pose proof (unit_sign _ _ _ U Hm) as Pm.
  split; [|split].
  - replace (vdot n (vsub (vadd a (vscale s (vsub b a))) a)) with (s * vdot n (vsub b a)) by (unfold vdot, vsub, vadd, vscale; cbn; ring).
    apply Rmult_le_pos; lra.
  - replace (vdot m (vsub (vadd a (vscale s (vsub b a))) b)) with (- ((1 - s) * vdot m (vsub b a))) by (unfold vdot, vsub, vadd, vscale; cbn; ring).
    assert (0 <= (1 - s) * vdot m (vsub b a)) by (apply Rmult_le_pos; lra). lra.
  - destruct (unit_reach _ _ s U) as [t Et]. exists t. rewrite Et. unfold within.
    match goal with |- sqrt ?e <= _ => replace e with 0 by (unfold vdot, vsub; cbn; ring) end. rewrite sqrt_0. exact Hr.
Qed.

(** The file *)
Section file.
Context {C : Type} (newline : C -> bool) (numbers : list C -> list R) (nl : C).
Hypothesis Hnl : newline nl = true.
Definition plain (l : list C) : Prop := Forall (fun c => newline c = false) l.
Definition text (lines : list (list C)) (rest : list C) : list C := flat_map (fun l => l ++ [nl]) lines ++ rest.

Lemma getline_line l s : plain l -> getline newline (l ++ nl :: s) = Some (l, s).
Proof. induction 1 as [|c l Hc _ IH]; cbn; [now rewrite Hnl|]. now rewrite Hc, IH. Qed.
Lemma getline_rest l : plain l -> l <> [] -> getline newline l = Some (l, []).
Proof.
  induction 1 as [|c l Hc _ IH]; intros H; [contradiction|]. cbn. rewrite Hc. destruct l as [|d l]; [reflexivity|]. now rewrite IH.
Qed.
Lemma count_plain l s : plain l -> count_newlines newline (l ++ s) = count_newlines newline s.
Proof. induction 1 as [|c l Hc _ IH]; cbn; [reflexivity|]. now rewrite Hc. Qed.
Lemma count_text lines rest : Forall plain lines -> plain rest -> count_newlines newline (text lines rest) = length lines.
Proof.
  intros HF Hr. unfold text. induction HF as [|l ls Hl _ IH]; cbn [flat_map length].
  - cbn [app]. rewrite <- (app_nil_r rest), count_plain by exact Hr. reflexivity.
  - rewrite <- !app_assoc, count_plain by exact Hl. cbn. rewrite Hnl, IH. reflexivity.
Qed.
Definition point_of (l : list C) : list vec := match numbers l with x :: y :: _ => [mkVec x y 0] | _ => [] end.
Lemma text_cons l ls rest : text (l :: ls) rest = l ++ nl :: text ls rest.
Proof. unfold text. cbn. now rewrite <- !app_assoc. Qed.
Lemma point_length l : (length (point_of l) <= 1)%nat.
Proof. unfold point_of. destruct (numbers l) as [|? [|? ?]]; cbn; lia. Qed.
Lemma points_length ls : (length (flat_map point_of ls) <= length ls)%nat.
Proof. induction ls as [|l ls IH]; cbn; [lia|]. rewrite app_length. pose proof (point_length l). lia. Qed.
Lemma read_lines n : forall lines done fuel rest, Forall plain lines -> plain rest -> (length (text lines rest) < fuel)%nat ->
  (length done + length lines <= n)%nat ->
  read_loop newline numbers fuel n (text lines rest) done =
  (let l := done ++ flat_map point_of lines in
   if (length l <? n)%nat then match rest with [] => l | _ => l ++ point_of rest end else l).
Proof.
  induction lines as [|l ls IH]; intros done fuel rest HF Hr Hf Hn.
  - cbn [flat_map]. rewrite app_nil_r. cbv zeta. change (text [] rest) with rest in *. destruct fuel as [|k]; [lia|]. destruct rest as [|c r].
    + cbn [read_loop getline]. now destruct (length done <? n)%nat.
    + cbn [read_loop]. rewrite getline_rest by (assumption || discriminate).
      destruct (length done <? n)%nat; [|reflexivity]. unfold point_of.
      assert (K : forall d, read_loop newline numbers k n [] d = d) by (intros d; destruct k; reflexivity).
      destruct (numbers (c :: r)) as [|x [|y q]]; rewrite K; [now rewrite app_nil_r|now rewrite app_nil_r|reflexivity].
  - apply Forall_cons_iff in HF. destruct HF as [Hl HF]. rewrite text_cons in *. rewrite app_length in Hf. cbn [length] in Hf, Hn.
    destruct fuel as [|k]; [lia|]. cbn [read_loop]. rewrite getline_line by exact Hl.
    replace (length done <? n)%nat with true by (symmetry; apply Nat.ltb_lt; lia).
    assert (E : forall d, (length d <= S (length done))%nat -> read_loop newline numbers k n (text ls rest) d =
      (let l := d ++ flat_map point_of ls in if (length l <? n)%nat then match rest with [] => l | _ => l ++ point_of rest end else l)).
    { intros d Hd. apply IH; try assumption; lia. }
    cbn [flat_map]. rewrite app_assoc. remember (point_of l) as pl eqn:Epl. unfold point_of in Epl.
    destruct (numbers l) as [|x [|y q]]; subst pl.
    + rewrite E by lia. now rewrite app_nil_r.
    + rewrite E by lia. now rewrite app_nil_r.
    + rewrite E by (rewrite app_length; cbn; lia). reflexivity.
Qed.
End file.
