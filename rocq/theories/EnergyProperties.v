(** C87: setting the internal energy of a mixture. *)
From Coq Require Import List ZArith Reals Lia Lra Bool.
From Verif Require Import EnergyModel EnergyProofs EnergyProofs2 EnergyProofs3 EnergyProofs4 EnergySpec.
Import ListNotations.
Local Open Scope R_scope.

Lemma law_lip u cv cmin cmax : mixture_law u cv cmin cmax ->
  forall x y, x <= y -> cmin * (y - x) <= u y - u x <= cmax * (y - x).
Proof.
  intros (H1 & _ & H2 & H3) x y [L|E]; [|subst; split; lra].
  destruct (MVT_cor2 u cv x y L (fun c _ => H2 c)) as (c & Hc & _). rewrite Hc. specialize (H3 c).
  split; apply Rmult_le_compat_r; lra.
Qed.

Lemma tenths_Z : (9 ^ Z.of_nat 241 * 100000000000 < 10 ^ Z.of_nat 241)%Z.
Proof. vm_compute. reflexivity. Qed.

Lemma tenths : exists k : nat, (k + k + 2 + 500 <= 999)%nat /\ (9 / 10) ^ k * (10 * 100) * 10 * 10 < 1 / 1000000.
Proof.
  exists 241%nat. split; [lia|]. unfold Rdiv at 1. rewrite Rpow_mult_distr, pow_inv, !pow_IZR.
  pose proof tenths_Z as H. apply IZR_lt in H. rewrite mult_IZR in H.
  assert (0 < IZR (10 ^ Z.of_nat 241)) as P by (apply IZR_lt, Z.pow_pos_nonneg; lia).
  revert H P. generalize (IZR (9 ^ Z.of_nat 241)). generalize (IZR (10 ^ Z.of_nat 241)). intros b a H P.
  apply Rmult_lt_reg_r with (b * 1000000); [lra|].
  replace (a * / b * (10 * 100) * 10 * 10 * (b * 1000000)) with (a * 100000000000) by (field; lra).
  replace (1 / 1000000 * (b * 1000000)) with b by field. exact H.
Qed.

Lemma INR500 : INR 500 = 500.
Proof. rewrite INR_IZR_INZ. reflexivity. Qed.

Lemma accurate_right u cmax target Ts tol T : accurate u target Ts cmax 10 tol T <-> right_temperature u cmax target Ts tol T.
Proof. unfold accurate, right_temperature. tauto. Qed.

(** C87 (one mixture): for every mixture with a heat capacity between cmin and cmax <= 10 cmin, every initial temperature within
    50000 K of the solution and every tolerance between 1e-6 and 100 the limited Newton iteration ends within its 1000 passes,
    and the temperature it returns is right *)
Theorem C87_converges :
  forall u cv cmin cmax T0 Ts target dTtol, mixture_law u cv cmin cmax -> u Ts = target ->
    Rabs (Ts - T0) <= 50000 -> 1 / 1000000 <= dTtol <= 100 ->
    exists T, SetEnergy u cv T0 target dTtol = Some T /\ right_temperature u cmax target Ts dTtol T.
Proof.
  intros u cv cmin cmax T0 Ts target tol HL Hr Hd Ht. pose proof (law_lip _ _ _ _ HL) as Hlip. destruct HL as (H1 & H2 & H3 & H4).
  destruct tenths as (k & Hk & Hp).
  destruct (from_start u cv target Ts cmin cmax 10 (9 / 10) tol) with (n := Z.to_nat 1000) (k := k) (m := 500%nat) (T0 := T0)
    as (T & E & A); try assumption; try lra.
  - rewrite INR500. lra.
  - lia.
  - exists T. split; [exact E|]. apply accurate_right. exact A.
Qed.

Print Assumptions C87_converges.

(** C87 (packs): the same for all lanes of a pack, each with its own composition; no lane is disturbed by the passes that other
    lanes still need *)
Theorem C87_packs_converge :
  forall (mixtures : list ((R -> R) * (R -> R) * R * R)) (laws : list (R * R * R)) dTtol,
    1 / 1000000 <= dTtol <= 100 ->
    Forall2 (fun m l => let '(u, cv, T0, target) := m in let '(Ts, cmin, cmax) := l in
               mixture_law u cv cmin cmax /\ u Ts = target /\ Rabs (Ts - T0) <= 50000) mixtures laws ->
    exists temperatures, SetEnergyArray mixtures dTtol = Some temperatures /\
      length temperatures = length mixtures /\
      forall i u cv T0 target Ts cmin cmax T,
        nth_error mixtures i = Some (u, cv, T0, target) -> nth_error laws i = Some (Ts, cmin, cmax) ->
        nth_error temperatures i = Some T -> right_temperature u cmax target Ts dTtol T.
Proof.
  intros mixtures laws tol Ht H. unfold SetEnergyArray.
  set (start := fun m : (R -> R) * (R -> R) * R * R => let '(u, cv, T0, target) := m in mkLane u cv target (newton_start u cv T0)).
  destruct tenths as (k & Hk & Hp).
  destruct (pack_terminates 10 (9 / 10) tol ltac:(lra) ltac:(lra) ltac:(lra) ltac:(lra) (Z.to_nat 999) (map start mixtures) laws) as (Ts & E & F).
  - induction H as [|[[[u cv] T0] target] [[Ts cmin] cmax] ms ls HP _ IH]; [constructor|]. cbn [map]. constructor; [|exact IH].
    destruct HP as (HL & Hr & Hd). pose proof (law_lip _ _ _ _ HL) as Hlip. destruct HL as (H1 & H2 & H3 & H4). unfold start, lane_pending.
    split; [unfold regular; cbn [l_u l_cv l_target]; do 4 (split; [assumption|]); assumption|]. cbn [l_u l_cv l_target l_state].
    apply pending_start with (cmin := cmin) (cmax := cmax) (k := k) (m := 500%nat); try assumption; try lra.
    + rewrite INR500. lra.
    + lia.
  - exists Ts. split; [exact E|]. clear E. revert Ts F. induction H as [|[[[u cv] T0] target] [[Tx cmin] cmax] ms ls HP _ IH]; intros Ts F.
    + inversion F; subst. split; [reflexivity|]. intros [|i]; discriminate.
    + cbn [map combine] in F. inversion F as [|x T xs Ts' F1 F2]; subst. destruct (IH _ F2) as [L G]. split; [cbn; rewrite L; reflexivity|].
      intros [|i]; cbn [nth_error].
      * intros u' cv' T0' target' Tx' cmin' cmax' T' X Y Z. inversion X; inversion Y; inversion Z; subst. cbn [fst snd] in F1.
        apply accurate_right. exact F1.
      * apply G.
Qed.

Print Assumptions C87_packs_converge.

(** C87 (packs with a mask): the active lanes get exactly the temperatures they would get in a pack of their own, the others do
    not matter: not to the values, not to the number of passes and not to the exception; they end at 300 K *)
Theorem C87_masked :
  forall (mixtures : list (bool * ((R -> R) * (R -> R) * R * R))) dTtol,
    match SetEnergyArrayMasked mixtures dTtol with
    | Some temperatures =>
        length temperatures = length mixtures /\
        SetEnergyArray (map snd (filter fst mixtures)) dTtol = Some (map snd (filter fst (combine (map fst mixtures) temperatures))) /\
        forall i m, nth_error mixtures i = Some (false, m) -> nth_error temperatures i = Some 300
    | None => SetEnergyArray (map snd (filter fst mixtures)) dTtol = None
    end.
Proof.
  intros mixtures tol. pose proof (masked_run (Z.to_nat 1000) tol _ (idles_start mixtures)) as H.
  rewrite actives_start, fst_start, map_length in H. unfold SetEnergyArrayMasked, SetEnergyArray.
  fold masked_start. fold lane_of. destruct (iterate_masked _ _ _) as [Ts|]; [|exact H].
  destruct H as (H1 & H2 & H3). split; [exact H2|]. split; [rewrite <- pick_filter; exact H1|].
  intros i [[[u cv] T0] target] E. eapply (H3 i). rewrite nth_error_map, E. reflexivity.
Qed.

Print Assumptions C87_masked.

(** two active lanes and one that is not *)
Example C87_masked_example :
  map snd (filter fst [(true, (fun T => 1100 * T, fun _ : R => 1100, 300, 2200000));
                       (false, (fun T => 5 * T, fun _ : R => -7, 1, 2));
                       (true, (fun T => 900 * T, fun _ : R => 900, 400, 1000000))]) =
  [(fun T => 1100 * T, fun _ : R => 1100, 300, 2200000); (fun T => 900 * T, fun _ : R => 900, 400, 1000000)].
Proof. reflexivity. Qed.

(** A mixture that is in range: heat capacity between 700 and 1500, temperature from 300 K to about 2000 K *)
Example C87_example :
  mixture_law (fun T => 1100 * T) (fun _ => 1100) 700 1500 /\ 1100 * 2000 = 2200000 /\ Rabs (2000 - 300) <= 50000.
Proof.
  split; [|split; [lra|rewrite Rabs_right; lra]]. split; [lra|]. split; [lra|]. split; [|intros; lra].
  intros T. pose proof (derivable_pt_lim_scal id 1100 T 1 (derivable_pt_lim_id T)) as D. rewrite Rmult_1_r in D. exact D.
Qed.

(** a heat capacity that is not constant: 1000 + 200 sin T *)
Example C87_example_varying :
  mixture_law (fun T => 1000 * T - 200 * cos T) (fun T => 1000 + 200 * sin T) 800 1200.
Proof.
  split; [lra|]. split; [lra|]. split.
  - intros T. pose proof (derivable_pt_lim_scal id 1000 T 1 (derivable_pt_lim_id T)) as D1. rewrite Rmult_1_r in D1.
    pose proof (derivable_pt_lim_scal cos 200 T (- sin T) (derivable_pt_lim_cos T)) as D2.
    pose proof (derivable_pt_lim_minus _ _ _ _ _ D1 D2) as D. replace (1000 + 200 * sin T) with (1000 - 200 * - sin T) by ring. exact D.
  - intros T. pose proof (SIN_bound T). lra.
Qed.

(** C87 (refuted for impossible energies): nothing checks that the temperature is positive; an energy below that of 0 K is
    accepted and answered with a negative temperature *)
Theorem C87_negative_refuted :
  exists u cv cmin cmax T0 target dTtol T, mixture_law u cv cmin cmax /\ 0 < T0 /\ 0 < dTtol /\
    SetEnergy u cv T0 target dTtol = Some T /\ T < 0.
Proof.
  assert (mixture_law (fun T => 718 * T) (fun _ => 718) 718 718) as HL.
  { split; [lra|]. split; [lra|]. split; [|intros; lra].
    intros T. pose proof (derivable_pt_lim_scal id 718 T 1 (derivable_pt_lim_id T)) as D. rewrite Rmult_1_r in D. exact D. }
  destruct (C87_converges (fun T => 718 * T) (fun _ => 718) 718 718 300 (-100) (-71800) 1) as (T & E & A);
    [exact HL|lra|rewrite Rabs_left; lra|lra|].
  exists (fun T => 718 * T), (fun _ => 718), 718, 718, 300, (-71800), 1, T. split; [exact HL|]. split; [lra|]. split; [lra|]. split; [exact E|].
  destruct A as [A|A].
  - apply Rabs_le_between in A || (unfold Rabs in A; destruct (Rcase_abs _) in A); lra.
  - rewrite (Rabs_left (-71800)) in A by lra. unfold Rmax in A. unfold Rabs in A.
    repeat match goal with H : context [Rle_dec ?a ?b] |- _ => destruct (Rle_dec a b) | H : context [Rcase_abs ?a] |- _ => destruct (Rcase_abs a) end; lra.
Qed.

Print Assumptions C87_negative_refuted.
