(** Lemmas for C88: sums and compositions. *)
From Coq Require Import String List Reals Lra Lia Bool.
From Verif Require Import ReactorModel ReactorSpec.
Import ListNotations.
Local Open Scope R_scope.

Lemma fold_Rplus l a : fold_left Rplus l a = a + total l.
Proof. revert a. induction l as [|x l IH]; intros a; cbn [fold_left total]; [ring|]. rewrite IH. ring. Qed.
Lemma accumulate_total l : accumulate l = total l.
Proof. unfold accumulate. rewrite fold_Rplus. ring. Qed.

Lemma fold_divided a b z : fold_left (fun acc p => acc + fst p / snd p) (combine a b) z = z + divided a b.
Proof. revert b z. induction a as [|x a IH]; intros [|y b] z; cbn [combine fold_left divided fst snd]; try ring. rewrite IH. ring. Qed.
Lemma fold_weighted a b z : fold_left (fun acc p => acc + fst p * snd p) (combine a b) z = z + weighted a b.
Proof. revert b z. induction a as [|x a IH]; intros [|y b] z; cbn [combine fold_left weighted fst snd]; try ring. rewrite IH. ring. Qed.

Lemma total_scale k l : total (map (fun x => k * x) l) = k * total l.
Proof. induction l as [|x l IH]; cbn; [ring|]. rewrite IH. ring. Qed.
Lemma total_div l s : total (map (fun x => x / s) l) = total l / s.
Proof. induction l as [|x l IH]; cbn; unfold Rdiv in *; [ring|]. rewrite IH. ring. Qed.
Lemma total_app a b : total (a ++ b) = total a + total b.
Proof. induction a as [|x a IH]; cbn; [ring|]. rewrite IH. ring. Qed.
Lemma total_nonneg l : nonneg l -> 0 <= total l.
Proof. induction l as [|x l IH]; intros H; cbn; [lra|]. pose proof (H x (or_introl eq_refl)). assert (0 <= total l) by (apply IH; intros y I; apply H; right; exact I). lra. Qed.
Lemma total_ge l x : nonneg l -> In x l -> x <= total l.
Proof.
  induction l as [|y l IH]; intros H I; [contradiction|]. cbn. assert (nonneg l) as Hl by (intros z J; apply H; right; exact J).
  pose proof (total_nonneg l Hl). destruct I as [-> | I]; [lra|]. pose proof (H y (or_introl eq_refl)). pose proof (IH Hl I). lra.
Qed.

Lemma nonneg_clip l : nonneg (map (Rmax 0) l).
Proof. intros x I. apply in_map_iff in I as (y & <- & _). apply Rmax_l. Qed.
Lemma clip_id l : nonneg l -> map (Rmax 0) l = l.
Proof. induction l as [|x l IH]; intros H; [reflexivity|]. cbn. rewrite IH by (intros y I; apply H; right; exact I). rewrite Rmax_right; [reflexivity|apply H; left; reflexivity]. Qed.
Lemma nonneg_div l s : nonneg l -> 0 < s -> nonneg (map (fun x => x / s) l).
Proof. intros H P x I. apply in_map_iff in I as (y & <- & J). apply Rmult_le_pos; [apply H; exact J|]. apply Rlt_le, Rinv_0_lt_compat. exact P. Qed.

Lemma weighted_scale k a b : weighted (map (fun x => k * x) a) b = k * weighted a b.
Proof. revert b. induction a as [|x a IH]; intros [|y b]; cbn; try ring. rewrite IH. ring. Qed.
Lemma weighted_div a b s : weighted (map (fun x => x / s) a) b = weighted a b / s.
Proof. revert b. induction a as [|x a IH]; intros [|y b]; cbn; unfold Rdiv in *; try ring. rewrite IH. ring. Qed.
Lemma divided_div a b s : divided (map (fun x => x / s) a) b = divided a b / s.
Proof. revert b. induction a as [|x a IH]; intros [|y b]; cbn; unfold Rdiv in *; try ring. rewrite IH. ring. Qed.
Lemma weighted_pos a b : nonneg a -> all_pos b -> length a = length b -> 0 < total a -> 0 < weighted a b.
Proof.
  revert b. induction a as [|x a IH]; intros [|y b] H1 H2 L H3; try discriminate; cbn in *; [lra|]. injection L as L.
  assert (nonneg a) as Ha by (intros z J; apply H1; right; exact J). assert (all_pos b) as Hb by (intros z J; apply H2; right; exact J).
  pose proof (H1 x (or_introl eq_refl)) as Hx. pose proof (H2 y (or_introl eq_refl)) as Hy. pose proof (total_nonneg a Ha) as Ta.
  assert (0 <= x * y) by (apply Rmult_le_pos; lra).
  destruct (Rle_lt_or_eq_dec 0 (total a) Ta) as [P|E].
  - pose proof (IH b Ha Hb L P). lra.
  - assert (0 < x * y) by (apply Rmult_lt_0_compat; lra). assert (0 <= weighted a b).
    { clear - Ha Hb L. revert b Hb L. induction a as [|z a IH]; intros [|w b] Hb L; try discriminate; cbn; [lra|]. injection L as L.
      assert (0 <= z * w) by (apply Rmult_le_pos; [apply Ha; left; reflexivity|apply Rlt_le, Hb; left; reflexivity]).
      assert (0 <= weighted a b) by (apply IH; [intros v J; apply Ha; right; exact J|intros v J; apply Hb; right; exact J|exact L]). lra. }
    lra.
Qed.

Lemma divided_weighted a b : all_pos b -> divided a b = weighted a (map Rinv b).
Proof. revert b. induction a as [|x a IH]; intros [|y b] H; cbn; try reflexivity. rewrite IH by (intros z J; apply H; right; exact J). reflexivity. Qed.
Lemma divided_pos a b : nonneg a -> all_pos b -> length a = length b -> 0 < total a -> 0 < divided a b.
Proof.
  intros H1 H2 L H3. rewrite divided_weighted by exact H2. apply weighted_pos; try assumption.
  - intros x I. apply in_map_iff in I as (y & <- & J). apply Rinv_0_lt_compat, H2, J.
  - rewrite map_length. exact L.
Qed.

Lemma nth_map_combine (f : R * R -> R) a b i : (i < length a)%nat -> (i < length b)%nat ->
  nth i (map f (combine a b)) 0 = f (nth i a 0, nth i b 0).
Proof. revert b i. induction a as [|x a IH]; intros [|y b] [|i] H1 H2; cbn in *; try lia; [reflexivity|]. apply IH; lia. Qed.

(** ** Mass fractions *)
Section M.
Variable m : mechanism.
Notation n := (length (molarMasses m)).

Lemma skip_all {A} (l : list A) k : (length l <= k)%nat -> skipn k l = [].
Proof. intros H. apply skipn_all2. exact H. Qed.

Lemma set_fractions fr r : length (massFractions r) = length fr ->
  massFractions (SetMassFractions m fr r) =
  (if Req_EM_T (total (map (Rmax 0) fr)) 0 then map (Rmax 0) fr else map (fun y => y / total (map (Rmax 0) fr)) (map (Rmax 0) fr)).
Proof.
  intros L. unfold SetMassFractions, UpdateMolesFromMassFractions, with_fractions. cbn [massFractions].
  rewrite skip_all by lia. rewrite app_nil_r, accumulate_total. reflexivity.
Qed.

Lemma set_fractions_pos fr r : length (massFractions r) = length fr -> 0 < total (map (Rmax 0) fr) ->
  massFractions (SetMassFractions m fr r) = map (fun y => y / total (map (Rmax 0) fr)) (map (Rmax 0) fr).
Proof. intros L P. rewrite set_fractions by exact L. destruct (Req_EM_T _ 0); [lra|reflexivity]. Qed.

Lemma clip_pos fr x : In x fr -> 0 < x -> 0 < total (map (Rmax 0) fr).
Proof.
  intros I P. apply Rlt_le_trans with (Rmax 0 x); [rewrite Rmax_right; lra|]. apply total_ge; [apply nonneg_clip|]. apply in_map. exact I.
Qed.

Lemma composition_fractions fr r x : length (massFractions r) = length fr -> In x fr -> 0 < x ->
  composition (length fr) (massFractions (SetMassFractions m fr r)).
Proof.
  intros L I P. pose proof (clip_pos fr x I P) as H. rewrite set_fractions_pos by assumption. split; [rewrite !map_length; reflexivity|]. split.
  - apply nonneg_div; [apply nonneg_clip|exact H].
  - rewrite total_div. field. lra.
Qed.

Lemma nth_moles rho Y i : (i < length Y)%nat -> (i < n)%nat -> nth i (moles_of m rho Y) 0 = nth i Y 0 * rho / nth i (molarMasses m) 0.
Proof.
  intros H1 H2. unfold moles_of. rewrite nth_map_combine by assumption. reflexivity.
Qed.

Lemma total_moles rho Y : total (moles_of m rho Y) = rho * divided Y (molarMasses m).
Proof.
  unfold moles_of. generalize (molarMasses m) as M. induction Y as [|y Y IH]; intros [|z M]; cbn; try ring. rewrite IH. unfold Rdiv. ring.
Qed.

Lemma to_mass_eq X : to_mass m X = map (fun p => fst p * (snd p / weighted X (molarMasses m))) (combine X (molarMasses m)).
Proof.
  unfold to_mass. rewrite accumulate_total. f_equal. 
  assert (total (map (fun p => fst p * snd p) (combine X (molarMasses m))) = weighted X (molarMasses m)) as ->; [|reflexivity].
  generalize (molarMasses m) as M. induction X as [|x X IH]; intros [|z M]; cbn; try reflexivity. rewrite IH. reflexivity.
Qed.

Lemma nth_to_mass X i : (i < length X)%nat -> (i < n)%nat ->
  nth i (to_mass m X) 0 = nth i X 0 * (nth i (molarMasses m) 0 / weighted X (molarMasses m)).
Proof.
  intros H1 H2. rewrite to_mass_eq, nth_map_combine by assumption. reflexivity.
Qed.

Lemma total_to_mass X : 0 < weighted X (molarMasses m) -> total (to_mass m X) = 1.
Proof.
  intros P. rewrite to_mass_eq.
  assert (forall w M, total (map (fun p => fst p * (snd p / w)) (combine X M)) = weighted X M / w) as ->.
  { clear. intros w. induction X as [|x X IH]; intros [|z M]; cbn; unfold Rdiv in *; try ring. rewrite IH. ring. }
  field. lra.
Qed.

Lemma nonneg_to_mass X : nonneg X -> all_pos (molarMasses m) -> 0 < weighted X (molarMasses m) -> nonneg (to_mass m X).
Proof.
  intros H1 H2 P y I. rewrite to_mass_eq in I. apply in_map_iff in I as ([x z] & <- & J). cbn [fst snd].
  pose proof (in_combine_l _ _ _ _ J) as Jl. pose proof (in_combine_r _ _ _ _ J) as Jr.
  apply Rmult_le_pos; [apply H1; exact Jl|]. apply Rlt_le, Rmult_lt_0_compat; [apply H2; exact Jr|apply Rinv_0_lt_compat; exact P].
Qed.

Lemma length_to_mass X : length X = n -> length (to_mass m X) = n.
Proof. intros H. unfold to_mass. rewrite map_length, combine_length, H. apply Nat.min_id. Qed.

Lemma divided_to_mass X : all_pos (molarMasses m) -> length X = n ->
  divided (to_mass m X) (molarMasses m) = total X / weighted X (molarMasses m).
Proof.
  intros H L. rewrite to_mass_eq. generalize (weighted X (molarMasses m)) as w. intros w. revert X L. generalize (molarMasses m) as M, H. clear.
  induction M as [|z M IH]; intros HM [|x X] L; try discriminate; cbn; [unfold Rdiv; ring|]. injection L as L.
  rewrite IH; [|intros v J; apply HM; right; exact J|exact L]. assert (0 < z) by (apply HM; left; reflexivity). unfold Rdiv. generalize (/ w). intros v. field. lra.
Qed.
End M.
