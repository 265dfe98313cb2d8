(** Proofs for C146. *)
From Coq Require Import List ZArith Reals Bool Sorted Lra Lia.
From Verif Require Import ProfileModel ProfileSpec.
Import ListNotations.
Local Open Scope R_scope.

Lemma lb_split v l1 l2 : Forall (fun x => x < v) l1 -> Forall (fun x => v <= x) l2 -> lower_bound (l1 ++ l2) v = length l1.
Proof.
  induction l1 as [|a r IH]; cbn; intros H1 H2.
  - destruct l2 as [|b l2]; cbn; [reflexivity|]. inversion H2; subst. destruct (Rlt_dec b v); [lra|reflexivity].
  - inversion H1; subst. destruct (Rlt_dec a v); [|lra]. now rewrite IH.
Qed.
Lemma lb_le xs v : (lower_bound xs v <= length xs)%nat.
Proof. induction xs as [|a r IH]; cbn; [lia|]. destruct (Rlt_dec a v); lia. Qed.

Lemma fold_sum l a : fold_left Rplus l a = a + sum l.
Proof. revert a. induction l as [|x r IH]; intros a; cbn; [lra|]. rewrite IH. lra. Qed.
Lemma mean_sum l : l <> [] -> mean_of l * INR (length l) = sum l.
Proof.
  intros H. unfold mean_of. rewrite fold_sum. field. apply not_0_INR. destruct l; [congruence|]. cbn. lia.
Qed.
Lemma sum_bounds l lo hi : (forall x, In x l -> lo <= x <= hi) -> lo * INR (length l) <= sum l <= hi * INR (length l).
Proof.
  induction l as [|a r IH]; intros H; [cbn; lra|]. cbn [length sum]. rewrite S_INR.
  pose proof (H a (or_introl eq_refl)). specialize (IH (fun x Hx => H x (or_intror Hx))). lra.
Qed.
Lemma mean_bounds l lo hi : l <> [] -> (forall x, In x l -> lo <= x <= hi) -> lo <= mean_of l <= hi.
Proof.
  intros Hl H. pose proof (mean_sum l Hl) as E. pose proof (sum_bounds l lo hi H) as B. rewrite <- E in B.
  assert (0 < INR (length l)) by (apply lt_0_INR; destruct l; [congruence|cbn; lia]).
  destruct B. split; apply (Rmult_le_reg_r (INR (length l))); lra.
Qed.
Lemma average_part l : l <> [] -> is_average l (mkPrim (mean_of (map density (map snd l))) (mean_of (map velocity (map snd l))) (mean_of (map pressure (map snd l)))).
Proof.
  intros Hl. rewrite !map_map. unfold is_average; cbn [density velocity pressure]. split; [exact Hl|].
  repeat split; match goal with |- mean_of (map ?f l) * _ = _ => rewrite <- (map_length f l) end; apply mean_sum;
  destruct l; cbn; congruence.
Qed.

Lemma Forall_fst P (l : list (R * prim)) : Forall (fun s => P (fst s)) l -> Forall P (map fst l).
Proof. induction 1; cbn; constructor; auto. Qed.

Section cell.
Context (xlo xhi : R) (l before within after : list (R * prim)).
Hypothesis HX : xlo < xhi.
Hypothesis HS : split xlo xhi l before within after.

Lemma cell_lo : lower_bound (map fst l) xlo = length before.
Proof.
  destruct HS as [-> Hb Hw Ha]. rewrite map_app. rewrite <- (map_length fst before). apply lb_split.
  - now apply (Forall_fst (fun x => x < xlo)).
  - rewrite map_app. apply Forall_app. split.
    + apply (Forall_fst (fun x => xlo <= x)). eapply Forall_impl; [|exact Hw]. cbn. intros; lra.
    + apply (Forall_fst (fun x => xlo <= x)). eapply Forall_impl; [|exact Ha]. cbn. intros; lra.
Qed.
Lemma cell_up : lower_bound (map fst l) xhi = (length before + length within)%nat.
Proof.
  destruct HS as [-> Hb Hw Ha]. rewrite app_assoc, map_app, <- app_length, <- (map_length fst (before ++ within)). apply lb_split.
  - rewrite map_app. apply Forall_app. split.
    + apply (Forall_fst (fun x => x < xhi)). eapply Forall_impl; [|exact Hb]. cbn. intros; lra.
    + apply (Forall_fst (fun x => x < xhi)). eapply Forall_impl; [|exact Hw]. cbn. intros; lra.
  - now apply (Forall_fst (fun x => xhi <= x)).
Qed.
Lemma cell_len : length l = (length before + length within + length after)%nat.
Proof. destruct HS as [-> _ _ _]. rewrite !app_length. lia. Qed.

Lemma cell_past : after = [] -> cell_value l xlo xhi = match length l with O => None | S k => nth_error (map snd l) k end.
Proof.
  intros Ha. unfold cell_value. cbv zeta. rewrite cell_up, map_length. pose proof cell_len as E. rewrite Ha in E. cbn in E.
  replace (length l <=? length before + length within)%nat with true; [reflexivity|]. symmetry. apply Nat.leb_le. lia.
Qed.
Lemma cell_few s r : after = s :: r -> (length within <= 1)%nat -> cell_value l xlo xhi = Some (snd s).
Proof.
  intros Ha Hw. unfold cell_value. cbv zeta. rewrite cell_up, cell_lo, map_length. pose proof cell_len as E. rewrite Ha in E. cbn in E.
  replace (length l <=? length before + length within)%nat with false by (symmetry; apply Nat.leb_gt; lia).
  replace (S (length before) <? length before + length within)%nat with false by (symmetry; apply Nat.ltb_ge; lia). cbn [negb].
  destruct HS as [-> _ _ _]. rewrite Ha, app_assoc, map_app, nth_error_app2; rewrite map_length, app_length; [|lia].
  rewrite Nat.sub_diag. reflexivity.
Qed.
Lemma cell_many s r a w : after = s :: r -> within = a :: w -> w <> [] ->
  exists v, cell_value l xlo xhi = Some v /\ is_average w v.
Proof.
  intros Ha Hw Hne. unfold cell_value. cbv zeta. rewrite cell_up, cell_lo, map_length. pose proof cell_len as E. rewrite Ha, Hw in E. cbn in E.
  assert (0 < length w)%nat by (destruct w; [congruence|cbn; lia]).
  replace (length l <=? length before + length within)%nat with false by (symmetry; apply Nat.leb_gt; rewrite Hw; cbn; lia).
  replace (S (length before) <? length before + length within)%nat with true by (symmetry; apply Nat.ltb_lt; rewrite Hw; cbn; lia). cbn [negb].
  assert (P : firstn (length before + length within - S (length before)) (skipn (S (length before)) (map snd l)) = map snd w).
  { destruct HS as [-> _ _ _]. rewrite Hw. cbn [length].
    replace (before ++ (a :: w) ++ after) with ((before ++ [a]) ++ w ++ after) by (rewrite <- app_assoc; reflexivity).
    assert (K : forall (A : Type) (x y z : list A) n m, n = length x -> m = length y -> firstn m (skipn n (x ++ y ++ z)) = y).
    { clear. intros A x y z n m -> ->. rewrite skipn_app, skipn_all, Nat.sub_diag. cbn [app skipn].
      rewrite firstn_app, firstn_all, Nat.sub_diag. cbn [firstn]. apply app_nil_r. }
    rewrite !(map_app snd). apply K; rewrite ?app_length, !map_length; cbn; lia. }
  rewrite P. eexists. split; [reflexivity|]. now apply average_part.
Qed.
End cell.

(** Every ordered profile splits *)
Lemma split_exists l xlo xhi : xlo < xhi -> ordered l -> exists b w a, split xlo xhi l b w a.
Proof.
  intros HX. induction 1 as [|s r Hs IH HF].
  - exists [], [], []. constructor; constructor.
  - destruct IH as (b & w & a & [E Hb Hw Ha]). destruct (Rlt_dec (fst s) xlo) as [H1|H1].
    + exists (s :: b), w, a. constructor; auto. now rewrite E.
    + assert (Hr : Forall (fun t => fst s < fst t) r) by exact HF.
      assert (b = []) as ->.
      { destruct b as [|t b]; [reflexivity|]. exfalso. rewrite E in Hr. inversion Hr; subst. inversion Hb; subst. lra. }
      destruct (Rlt_dec (fst s) xhi) as [H2|H2].
      * exists [], (s :: w), a. constructor; auto; [now rewrite E|]. constructor; [lra|exact Hw].
      * assert (w = []) as ->.
        { destruct w as [|t w]; [reflexivity|]. exfalso. rewrite E in Hr. inversion Hr; subst. inversion Hw; subst. lra. }
        exists [], [], (s :: a). constructor; auto; [now rewrite E|]. constructor; [lra|exact Ha].
Qed.

Lemma value_from profile xlo xhi v : cell_value profile xlo xhi = Some v ->
  exists part, part <> [] /\ incl part profile /\ is_average part v.
Proof.
  unfold cell_value. cbv zeta. rewrite map_length.
  assert (One : forall k v, nth_error (map snd profile) k = Some v -> exists part, part <> [] /\ incl part profile /\ is_average part v).
  { intros k u E. rewrite nth_error_map in E. destruct (nth_error profile k) as [s|] eqn:Es; [|discriminate]. cbn in E. injection E as <-.
    exists [s]. split; [discriminate|]. split.
    - intros y [<-|[]]. eapply nth_error_In; eauto.
    - unfold is_average; cbn. split; [discriminate|]. repeat split; lra. }
  destruct (length profile <=? lower_bound (map fst profile) xhi)%nat eqn:E1.
  - destruct (length profile) eqn:El; [discriminate|]. apply One.
  - destruct (S (lower_bound (map fst profile) xlo) <? lower_bound (map fst profile) xhi)%nat eqn:E2; cbn [negb]; [|apply One].
    intros E. match type of E with Some ?x = Some _ => assert (Ev : v = x) by congruence end. clear E. set (lo := S (lower_bound (map fst profile) xlo)) in *. set (up := lower_bound (map fst profile) xhi) in *.
    apply Nat.ltb_lt in E2. apply Nat.leb_gt in E1.
    exists (firstn (up - lo) (skipn lo profile)).
    assert (Hne : firstn (up - lo) (skipn lo profile) <> []).
    { intros C. apply (f_equal (@length _)) in C. rewrite firstn_length, skipn_length in C. cbn in C. lia. }
    split; [exact Hne|]. split.
    + intros y Hy. rewrite <- (firstn_skipn lo profile). apply in_or_app. right.
      rewrite <- (firstn_skipn (up - lo) (skipn lo profile)). apply in_or_app. now left.
    + rewrite Ev, skipn_map, firstn_map. now apply average_part.
Qed.
Lemma value_some profile xlo xhi : profile <> [] -> exists v, cell_value profile xlo xhi = Some v.
Proof.
  intros Hne. unfold cell_value. cbv zeta. rewrite map_length.
  assert (N : forall k, (k < length profile)%nat -> exists v, nth_error (map snd profile) k = Some v).
  { intros k Hk. destruct (nth_error (map snd profile) k) as [v|] eqn:E; [eauto|]. apply nth_error_None in E. rewrite map_length in E. lia. }
  destruct (length profile <=? lower_bound (map fst profile) xhi)%nat eqn:E1.
  - destruct (length profile) eqn:El; [destruct profile; [congruence|discriminate]|]. apply N. lia.
  - apply Nat.leb_gt in E1. destruct (negb _); [now apply N|eauto].
Qed.
Lemma average_bounds part v (q : prim -> R) lo hi :
  (q = density \/ q = velocity \/ q = pressure) -> is_average part v -> (forall s, In s part -> lo <= q (snd s) <= hi) -> lo <= q v <= hi.
Proof.
  intros Hq (Hne & E1 & E2 & E3) H.
  assert (E : q v * INR (length part) = sum (map (fun s => q (snd s)) part)) by (destruct Hq as [-> | [-> | ->]]; assumption).
  assert (HN : 0 < INR (length part)) by (apply lt_0_INR; destruct part; [congruence|cbn; lia]).
  pose proof (sum_bounds (map (fun s => q (snd s)) part) lo hi) as B. rewrite map_length, <- E in B.
  destruct B as [B1 B2]; [intros x Hx; apply in_map_iff in Hx; destruct Hx as (s & <- & Hs); now apply H|].
  split; apply (Rmult_le_reg_r (INR (length part))); lra.
Qed.

(** Columns *)
Lemma prims_column file d0 i k : (i < d0)%nat -> raw_prims file d0 6 i k = file (i * 6 + k)%nat.
Proof.
  intros Hi. unfold raw_prims, raw_prim_data, n_rows. rewrite Nat.div_mul by lia.
  rewrite Nat.mod_add, Nat.mod_small, Nat.div_add, Nat.div_small by lia. f_equal.
Qed.
