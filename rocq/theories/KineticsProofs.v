(** Lemmas for C40 and C41. *)
From Coq Require Import List Reals Lra Lia Bool.
From Verif Require Import GasModel GasProofs KineticsModel KineticsSpec.
Import ListNotations.
Local Open Scope R_scope.

(** Rows *)
Lemma chunk_rows_map {A} (w : nat) (f : A -> A) : (1 <= w)%nat -> forall fuel stale l, length stale = w -> (length l < fuel)%nat ->
  chunk_rows fuel w f stale l = Some (map f l).
Proof.
  intros Hw. induction fuel as [|k IH]; intros stale l Hs Hl; [lia|]. cbn [chunk_rows].
  destruct (Nat.leb_spec w (length l)).
  - cbv zeta. rewrite IH.
    + rewrite <- map_app, firstn_skipn. reflexivity.
    + rewrite map_length, firstn_length. lia.
    + rewrite skipn_length. lia.
  - f_equal. rewrite map_app, firstn_app, map_length. replace (length l - length l)%nat with 0%nat by lia. cbn [firstn].
    rewrite app_nil_r. rewrite <- (map_length f l) at 1. apply firstn_all.
Qed.
Lemma advance_row {A} (w : nat) (f : A -> A) stale l : (1 <= w)%nat -> length stale = w -> AdvanceRow w f stale l = Some (map f l).
Proof. intros. apply chunk_rows_map; auto. Qed.

Lemma rsum_nonneg X : Forall (fun x => 0 <= x) X -> 0 <= rsum X.
Proof. induction 1; cbn; [lra|]. unfold rsum in IHForall. lra. Qed.
Lemma rsum_app a b : rsum (a ++ b) = rsum a + rsum b.
Proof. unfold rsum. induction a as [|x a IH]; cbn [app fold_right]; [ring|]. rewrite IH. ring. Qed.
Lemma unit_clamp_id x : 0 <= x <= 1 -> unit_clamp x = x.
Proof. intros H. unfold unit_clamp. rewrite Rmax_left, Rmin_left; lra. Qed.
Lemma unit_clamp_range x : 0 <= unit_clamp x <= 1.
Proof. unfold unit_clamp. split; [apply Rmin_glb; [apply Rmax_r | lra] | apply Rmin_r]. Qed.

Lemma exp_neg_range x : 0 <= x -> 0 <= 1 - exp (- x) < 1.
Proof.
  intros H. pose proof (exp_pos (- x)). split; [|lra].
  assert (exp (- x) <= 1); [|lra]. rewrite <- exp_0. destruct H as [H | <-]; [left; apply exp_increasing; lra | right; f_equal; ring].
Qed.

(** The reaction on three leading fractions. *)
Lemma react_core o dt T x0 x1 x2 rest : 0 <= ign_rate o T -> 0 <= dt -> composition (x0 :: x1 :: x2 :: rest) ->
  exists x0' x1' x2', ign_react o dt T (x0 :: x1 :: x2 :: rest) = (x0' :: x1' :: x2' :: rest, T + Tdiff o * (x2' - x2)) /\
    0 <= x0' <= x0 /\ 0 <= x1' /\ x2 <= x2' /\ x0' + x1' + x2' = x0 + x1 + x2 /\
    (x0 * exp (- ign_rate o T * dt) > Yign o * (1 - x2) -> x0' = x0 * exp (- ign_rate o T * dt) /\ x2' = x2).
Proof.
  intros Hr Hdt [HF HS]. inversion HF as [|? ? P0 T0]; subst. inversion T0 as [|? ? P1 T1]; subst. inversion T1 as [|? ? P2 T2]; subst.
  cbn [fold_right] in HS. pose proof (rsum_nonneg rest T2) as PR. unfold rsum in PR.
  set (e := exp (- ign_rate o T * dt)).
  assert (A : 0 <= 1 - e < 1).
  { unfold e. replace (- ign_rate o T * dt) with (- (ign_rate o T * dt)) by ring. apply exp_neg_range, Rmult_le_pos; auto. }
  assert (F0 : 0 <= (1 - e) * x0 <= x0).
  { split; [apply Rmult_le_pos; lra|]. rewrite <- (Rmult_1_l x0) at 2. apply Rmult_le_compat_r; lra. }
  unfold ign_react. cbn [row nth set_row]. fold e.
  rewrite (unit_clamp_id (x1 + (1 - e) * x0)) by lra.
  set (c := if Rle_dec (x0 - (1 - e) * x0) (Yign o * (1 - x2)) then 1 - exp (- exp (o_C o * (1 - o_E o / T)) * dt) else 0).
  assert (C : 0 <= c <= 1).
  { unfold c. destruct (Rle_dec _ _); [|lra]. replace (- exp (o_C o * (1 - o_E o / T)) * dt) with (- (exp (o_C o * (1 - o_E o / T)) * dt)) by ring.
    pose proof (exp_neg_range (exp (o_C o * (1 - o_E o / T)) * dt)) as E.
    assert (0 <= exp (o_C o * (1 - o_E o / T)) * dt) by (apply Rmult_le_pos; [left; apply exp_pos | auto]). specialize (E H). lra. }
  assert (M : forall y, 0 <= y -> 0 <= c * y <= y).
  { intros y Y. split; [apply Rmult_le_pos; lra|]. rewrite <- (Rmult_1_l y) at 2. apply Rmult_le_compat_r; lra. }
  pose proof (M (x1 + (1 - e) * x0) ltac:(lra)) as M1. pose proof (M (x0 - (1 - e) * x0) ltac:(lra)) as M0.
  rewrite (unit_clamp_id (x2 + c * (x1 + (1 - e) * x0))) by lra.
  rewrite (unit_clamp_id (x2 + c * (x1 + (1 - e) * x0) + c * (x0 - (1 - e) * x0))) by lra.
  eexists _, _, _. split; [|split; [|split; [|split; [|split]]]].
  - f_equal. f_equal. ring.
  - lra.
  - lra.
  - lra.
  - ring.
  - intros N. assert (c = 0) as ->.
    { unfold c. destruct (Rle_dec _ _) as [L | L]; auto. exfalso. apply (Rlt_not_le _ _ N). lra. }
    split; ring.
Qed.

Lemma rate_nonneg o T : sane_options o -> 0 <= ign_rate o T.
Proof.
  intros [[L0 L1] A]. unfold ign_rate.
  assert (0 <= - ln (Yign o / Yinit o / tau o)).
  { assert (ln (Yign o / Yinit o / tau o) <= 0); [|lra]. rewrite <- ln_1.
    destruct L1 as [L1 | L1]; [left; apply ln_increasing; auto | rewrite L1; lra]. }
  assert (0 < Rpower T (R_B o) * exp (R_C o * (1 - R_E o / T))) by (apply Rmult_lt_0_compat; [unfold Rpower; apply exp_pos | apply exp_pos]).
  assert (0 <= R2_A o * exp (R2_C o * (1 - R2_E o / T))) by (apply Rmult_le_pos; [auto | left; apply exp_pos]).
  lra.
Qed.

(** ** Conversions *)
Lemma squared_fold m : fold_right (fun x s => x * x + s) 0 m = squaredNorm m.
Proof. unfold squaredNorm. induction m; cbn; auto. rewrite IHm. reflexivity. Qed.

Lemma kinetic_of_consistent eq q : consistent eq q ->
  KineticStateFromComplete q = mkKin (x_rho q) (x_p q / x_rho q) (fractions_of q) (map (fun s => s / x_rho q) (x_S q)).
Proof.
  intros (_ & _ & _ & Hr & _ & [HF HS] & _). unfold KineticStateFromComplete.
  assert (E : map (fun y => Rmax (y / x_rho q) 0) (x_Y q) = map (fun y => y / x_rho q) (x_Y q)).
  { apply map_ext_in. intros y Hy. apply Rmax_left. unfold fractions_of in HF. apply Forall_app in HF. destruct HF as [HF _].
    rewrite Forall_forall in HF. apply HF. apply in_map_iff. exists y. auto. }
  rewrite E. unfold fractions_of in HF. apply Forall_app in HF. destruct HF as [HF1 HF2]. inversion HF2 as [|? ? P _]; subst.
  unfold rsum. rewrite (Rmax_left (1 - _) 0) by lra.
  fold (fractions_of q). rewrite HS. f_equal. rewrite <- (map_id (fractions_of q)) at 2. apply map_ext. intros x. field.
Qed.

Lemma removelast_snoc {A} (l : list A) x : removelast (l ++ [x]) = l.
Proof. apply removelast_last. Qed.

(** What CompleteFromKineticState keeps. *)
Lemma momentum_back q : x_rho q <> 0 -> map (fun v => x_rho q * v) (MixVelocity q) = x_mom q.
Proof.
  intros H. unfold MixVelocity. rewrite map_map. rewrite <- (map_id (x_mom q)) at 2. apply map_ext. intros m. field. auto.
Qed.
Lemma scalars_back q : x_rho q <> 0 -> map (fun s => x_rho q * s) (map (fun s => s / x_rho q) (x_S q)) = x_S q.
Proof. intros H. rewrite map_map. rewrite <- (map_id (x_S q)) at 2. apply map_ext. intros m. field. auto. Qed.

Lemma complete_keeps eq q T X : consistent eq q -> rsum X = 1 ->
  let q' := CompleteFromKineticState eq (mkKin (x_rho q) T X (map (fun s => s / x_rho q) (x_S q))) (MixVelocity q) in
  x_rho q' = x_rho q /\ x_mom q' = x_mom q /\ x_S q' = x_S q /\ x_Y q' = map (fun x => x_rho q * x) (removelast X) /\
  x_p q' = x_rho q * T /\ x_a q' = sqrt (e_gamma eq * T) /\
  x_E q' = x_E q + x_rho q * (T - x_p q / x_rho q) / (e_gamma eq - 1).
Proof.
  intros (G1 & G2 & G3 & Hr & Hp & _ & HE) HS q'. unfold q', CompleteFromKineticState. cbn [k_rho k_T k_X k_S x_rho x_mom x_S x_Y x_p x_a x_E].
  rewrite momentum_back, scalars_back by lra. rewrite HS. repeat split.
  - apply map_ext. intros x. field.
  - ring.
  - rewrite HE, G3, squared_fold. unfold KineticEnergy. field. lra.
Qed.

Lemma fractions_rebuilt rho X : rho <> 0 -> rsum X = 1 -> X <> [] ->
  map (fun y => y / rho) (map (fun x => rho * x) (removelast X))
  ++ [1 - fold_right Rplus 0 (map (fun y => y / rho) (map (fun x => rho * x) (removelast X)))] = X.
Proof.
  intros H HS HN. rewrite map_map.
  assert (E : map (fun x => rho * x / rho) (removelast X) = removelast X).
  { rewrite <- map_id. apply map_ext. intros x. field. auto. }
  rewrite E. rewrite (app_removelast_last 0 HN) at 3. f_equal. f_equal.
  rewrite (app_removelast_last 0 HN) in HS. rewrite rsum_app in HS. unfold rsum in HS. cbn [fold_right] in HS. lra.
Qed.

(** ** The step of a cell *)
Theorem ign_cell eq o dt q : consistent eq q -> sane_options o -> 0 <= dt -> (2 <= length (x_Y q))%nat ->
  let q' := ign_Advance eq o dt q in
  let X := fractions_of q in let X' := fractions_of q' in
  x_rho q' = x_rho q /\ x_mom q' = x_mom q /\ x_S q' = x_S q /\
  composition X' /\ length X' = length X /\ (forall i, (3 <= i)%nat -> nth i X' 0 = nth i X 0) /\
  nth 0 X' 0 <= nth 0 X 0 /\ nth 2 X 0 <= nth 2 X' 0 /\
  nth 0 X' 0 + nth 1 X' 0 + nth 2 X' 0 = nth 0 X 0 + nth 1 X 0 + nth 2 X 0 /\
  x_p q' / x_rho q' = x_p q / x_rho q + Tdiff o * (nth 2 X' 0 - nth 2 X 0) /\
  x_E q' = x_E q + x_rho q * Tdiff o * (nth 2 X' 0 - nth 2 X 0) / (e_gamma eq - 1) /\
  x_a q' = sqrt (e_gamma eq * (x_p q' / x_rho q')).
Proof.
  intros HC HO Hdt HL q' X X'.
  pose proof HC as (G1 & G2 & G3 & Hr & Hp & HX & HE). fold X in HX.
  assert (HLX : (3 <= length X)%nat) by (unfold X, fractions_of; rewrite app_length, map_length; cbn [length]; lia).
  assert (EQ : q' = let '(Z, T) := ign_react o dt (x_p q / x_rho q) X in
     CompleteFromKineticState eq (mkKin (x_rho q) T Z (map (fun s => s / x_rho q) (x_S q))) (MixVelocity q)).
  { unfold q', ign_Advance. rewrite (kinetic_of_consistent eq q HC). reflexivity. }
  clearbody X q'. destruct X as [|x0 [|x1 [|x2 rest]]]; cbn [length] in HLX; try lia.
  destruct (react_core o dt (x_p q / x_rho q) x0 x1 x2 rest (rate_nonneg o _ HO) Hdt HX) as (y0 & y1 & y2 & E & A & B & C & D & _).
  rewrite E in EQ.
  assert (HS : rsum (y0 :: y1 :: y2 :: rest) = 1).
  { destruct HX as [_ HX]. cbn [fold_right] in HX. unfold rsum. cbn [fold_right]. lra. }
  destruct (complete_keeps eq q (x_p q / x_rho q + Tdiff o * (y2 - x2)) (y0 :: y1 :: y2 :: rest) HC HS) as (K1 & K2 & K3 & K4 & K5 & K6 & K7).
  rewrite <- EQ in K1, K2, K3, K4, K5, K6, K7.
  assert (EX' : X' = y0 :: y1 :: y2 :: rest).
  { unfold X', fractions_of. rewrite K1, K4. apply fractions_rebuilt; [lra | auto | discriminate]. }
  rewrite K1, K2, K3, K5, K6, K7, EX'. cbn [nth length].
  assert (ER : x_rho q * (x_p q / x_rho q + Tdiff o * (y2 - x2)) / x_rho q = x_p q / x_rho q + Tdiff o * (y2 - x2)) by (field; lra).
  rewrite ER. split; [auto|]. split; [auto|]. split; [auto|]. split; [|split; [|split; [|split; [|split; [|split; [|split; [|split]]]]]]].
  - split; [|exact HS]. destruct HX as [HF _]. inversion HF as [|? ? P0 T0]; subst. inversion T0 as [|? ? P1 T1]; subst.
    inversion T1 as [|? ? P2 T2]; subst. apply Forall_cons; [lra|]. apply Forall_cons; [lra|]. apply Forall_cons; [lra|]. auto.
  - reflexivity.
  - intros i Hi. destruct i as [|[|[|i]]]; try lia. reflexivity.
  - lra.
  - lra.
  - lra.
  - reflexivity.
  - field. lra.
  - reflexivity.
Qed.

(** Arrhenius *)
Lemma set_row_length i v l : length (set_row i v l) = length l.
Proof. revert i. induction l as [|x l IH]; intros [|i]; cbn; auto. Qed.
Lemma arr_react_two dX x0 x1 rest : arr_react dX (x0 :: x1 :: rest) = (x0 + dX) :: (x1 - dX) :: rest.
Proof. reflexivity. Qed.

Theorem arr_cell eq o dt q : consistent eq q -> (1 <= length (x_Y q))%nat ->
  let q' := arr_Advance eq o dt q in
  let X := fractions_of q in let X' := fractions_of q' in
  let dX := arr_dX o dt (x_p q / x_rho q) X in
  x_rho q' = x_rho q /\ x_mom q' = x_mom q /\ x_S q' = x_S q /\ length X' = length X /\
  nth 0 X' 0 = nth 0 X 0 + dX /\ nth 1 X' 0 = nth 1 X 0 - dX /\ (forall i, (2 <= i)%nat -> nth i X' 0 = nth i X 0) /\
  fold_right Rplus 0 X' = 1 /\
  x_E q' = x_E q - a_Q o * x_rho q * dX /\
  x_p q' = x_p q - (e_gamma eq - 1) * a_Q o * x_rho q * dX /\ x_a q' = sqrt (e_gamma eq * x_p q' / x_rho q').
Proof.
  intros HC HL q' X X' dX.
  pose proof HC as (G1 & G2 & G3 & Hr & Hp & HX & HE). fold X in HX.
  assert (HLX : (2 <= length X)%nat) by (unfold X, fractions_of; rewrite app_length, map_length; cbn [length]; lia).
  assert (EQ : q' = let q1 := CompleteFromKineticState eq (mkKin (x_rho q) (x_p q / x_rho q) (arr_react dX X) (map (fun s => s / x_rho q) (x_S q))) (MixVelocity q) in
     MixCompleteFromCons eq (mkMix (x_rho q1) (x_mom q1) (x_E q1 + - a_Q o * x_rho q1 * dX) (x_Y q1) (x_S q1) (x_p q1) (x_a q1))).
  { unfold q', arr_Advance. rewrite (kinetic_of_consistent eq q HC). reflexivity. }
  clearbody dX. clearbody X q'. destruct X as [|x0 [|x1 rest]]; cbn [length] in HLX; try lia.
  rewrite arr_react_two in EQ.
  assert (HS : rsum ((x0 + dX) :: (x1 - dX) :: rest) = 1).
  { destruct HX as [_ HX]. cbn [fold_right] in HX. unfold rsum. cbn [fold_right]. lra. }
  destruct (complete_keeps eq q (x_p q / x_rho q) ((x0 + dX) :: (x1 - dX) :: rest) HC HS) as (K1 & K2 & K3 & K4 & K5 & K6 & K7).
  cbv zeta in EQ. unfold MixCompleteFromCons in EQ. cbn [x_rho x_mom x_S x_Y x_E x_p x_a] in EQ. rewrite K1, K2, K3, K4, K7 in EQ.
  assert (EX' : X' = (x0 + dX) :: (x1 - dX) :: rest).
  { unfold X', fractions_of. rewrite EQ. cbn [x_rho x_Y]. apply fractions_rebuilt; [lra | auto | discriminate]. }
  rewrite EX', EQ. cbn [x_rho x_mom x_S x_E x_p x_a].
  cbn [nth length]. split; [auto|]. split; [auto|]. split; [auto|]. split; [auto|]. split; [auto|]. split; [auto|].
  split; [|split; [|split; [|split]]].
  - intros i Hi. destruct i as [|[|i]]; try lia. reflexivity.
  - exact HS.
  - field. lra.
  - rewrite HE, squared_fold, G2. unfold KineticEnergy. field. lra.
  - reflexivity.
Qed.

Theorem arr_burn eq o dt q : consistent eq q -> (1 <= length (x_Y q))%nat -> 0 <= a_B o -> 0 <= dt ->
  T_switch o <= x_p q / x_rho q -> 1 / 100000 <= nth 0 (fractions_of q) 0 ->
  let q' := arr_Advance eq o dt q in
  let X := fractions_of q in let X' := fractions_of q' in
  0 <= nth 0 X' 0 <= nth 0 X 0 /\
  nth 0 X' 0 = nth 0 X 0 * exp (- (a_B o * dt * exp (a_EA o * (1 - 1 / (x_p q / x_rho q))))) /\
  composition X' /\ x_E q' = x_E q + a_Q o * x_rho q * (nth 0 X 0 - nth 0 X' 0).
Proof.
  intros HC HL HB Hdt HT H0 q' X X'.
  destruct (arr_cell eq o dt q HC HL) as (K1 & K2 & K3 & K4 & K5 & K6 & K7 & K8 & K9 & _).
  fold q' in K1, K2, K3, K4, K5, K6, K7, K8, K9. fold X X' in K4, K5, K6, K7, K8, K9. fold X in H0.
  set (T := x_p q / x_rho q) in *.
  set (r := a_B o * dt * exp (a_EA o * (1 - 1 / T))).
  assert (Hr : 0 <= r) by (unfold r; apply Rmult_le_pos; [apply Rmult_le_pos; auto | left; apply exp_pos]).
  assert (E : arr_dX o dt T X = nth 0 X 0 * exp (- r) - nth 0 X 0).
  { unfold arr_dX, row. destruct (Rle_dec (T_switch o) T); [|contradiction]. destruct (Rle_dec (1 / 100000) (nth 0 X 0)); [|contradiction].
    unfold r. f_equal. f_equal. f_equal. ring. }
  rewrite E in *. pose proof (exp_neg_range r Hr) as Er. pose proof (exp_pos (- r)) as Ep.
  assert (M : 0 <= nth 0 X 0 * exp (- r) <= nth 0 X 0).
  { split; [apply Rmult_le_pos; lra|]. rewrite <- (Rmult_1_r (nth 0 X 0)) at 2. apply Rmult_le_compat_l; lra. }
  assert (HX : composition X) by apply HC.
  split; [lra|]. split; [lra|]. split; [|rewrite K9, K5; ring]. split; [|exact K8].
  apply Forall_forall. intros x Hx. destruct (In_nth X' x 0 Hx) as (i & Hi & <-).
  assert (P : forall j, 0 <= nth j X 0).
  { intros j. destruct (Nat.lt_ge_cases j (length X)) as [L | L]; [|rewrite nth_overflow; [lra|auto]].
    destruct HX as [HF _]. rewrite Forall_forall in HF. apply HF, nth_In, L. }
  destruct i as [|[|i]]; [lra | pose proof (P 1%nat); lra | rewrite K7 by lia; apply P].
Qed.

(** Below the switch temperature *)
Theorem arr_cold eq o dt q : consistent eq q -> (1 <= length (x_Y q))%nat -> x_p q / x_rho q < T_switch o ->
  let q' := arr_Advance eq o dt q in
  nth 0 (fractions_of q') 0 = nth 0 (fractions_of q) 0 + / 67108864 /\
  nth 1 (fractions_of q') 0 = nth 1 (fractions_of q) 0 - / 67108864 /\
  x_E q' = x_E q - a_Q o * x_rho q * / 67108864.
Proof.
  intros HC HL HT q'. destruct (arr_cell eq o dt q HC HL) as (_ & _ & _ & _ & K5 & K6 & _ & _ & K9 & _). fold q' in K5, K6, K9.
  unfold arr_dX in K5, K6, K9. destruct (Rle_dec (T_switch o) (x_p q / x_rho q)); [lra|].
  rewrite K5, K6, K9. auto.
Qed.

(** The cell stays consistent while there is something to take from the second species. *)
Lemma arr_consistent eq o dt q : consistent eq q -> (1 <= length (x_Y q))%nat ->
  0 <= nth 0 (fractions_of q) 0 + arr_dX o dt (x_p q / x_rho q) (fractions_of q) ->
  0 <= nth 1 (fractions_of q) 0 - arr_dX o dt (x_p q / x_rho q) (fractions_of q) ->
  0 < x_p (arr_Advance eq o dt q) -> consistent eq (arr_Advance eq o dt q).
Proof.
  intros HC HL H0 H1 Hp. destruct (arr_cell eq o dt q HC HL) as (K1 & K2 & K3 & K4 & K5 & K6 & K7 & K8 & K9 & K10 & K11).
  pose proof HC as (G1 & G2 & G3 & Hr & _ & HX & HE).
  unfold consistent. split; [auto|]. split; [auto|]. split; [auto|]. split; [rewrite K1; auto|]. split; [auto|]. split; [split|].
  - apply Forall_forall. intros x Hx. destruct (In_nth _ x 0 Hx) as (i & Hi & <-).
    destruct i as [|[|i]]; [rewrite K5; auto | rewrite K6; auto | rewrite K7 by lia].
    destruct (Nat.lt_ge_cases (S (S i)) (length (fractions_of q))) as [L | L]; [|rewrite nth_overflow; [lra|auto]].
    destruct HX as [HF _]. rewrite Forall_forall in HF. apply HF, nth_In, L.
  - auto.
  - rewrite K1, K2, K9, K10, HE. field. lra.
Qed.

(** n steps below the switch *)
Fixpoint iterate {A} (n : nat) (f : A -> A) (x : A) : A := match n with O => x | S k => iterate k f (f x) end.

Lemma arr_cold_steps eq o dt : 0 <= a_Q o -> forall n q, consistent eq q -> (1 <= length (x_Y q))%nat -> x_p q / x_rho q < T_switch o ->
  INR n * / 67108864 <= nth 1 (fractions_of q) 0 -> INR n * ((e_gamma eq - 1) * a_Q o * / 67108864) < x_p q / x_rho q ->
  let q' := iterate n (arr_Advance eq o dt) q in
  nth 0 (fractions_of q') 0 = nth 0 (fractions_of q) 0 + INR n * / 67108864 /\
  nth 1 (fractions_of q') 0 = nth 1 (fractions_of q) 0 - INR n * / 67108864 /\
  x_E q' = x_E q - INR n * (a_Q o * x_rho q * / 67108864).
Proof.
  intros HQ. induction n as [|n IH]; intros q HC HL HT H1 H2 q'.
  - cbn [iterate] in q'. unfold q'. cbn [INR]. repeat split; ring.
  - unfold q'. cbn [iterate]. rewrite S_INR in *. pose proof (pos_INR n) as Pn.
    destruct (arr_cell eq o dt q HC HL) as (K1 & _ & _ & K4 & K5 & K6 & _ & _ & K9 & K10 & _).
    pose proof HC as (G1 & G2 & G3 & Hr & Hp & HX & HE).
    assert (ED : arr_dX o dt (x_p q / x_rho q) (fractions_of q) = / 67108864).
    { unfold arr_dX. destruct (Rle_dec (T_switch o) (x_p q / x_rho q)); [lra | reflexivity]. }
    assert (He : 0 < / 67108864) by lra.
    assert (HN : 0 <= INR n * / 67108864) by (apply Rmult_le_pos; lra).
    assert (Hg : 0 <= (e_gamma eq - 1) * a_Q o * / 67108864) by (repeat apply Rmult_le_pos; lra).
    assert (HN2 : 0 <= INR n * ((e_gamma eq - 1) * a_Q o * / 67108864)) by (apply Rmult_le_pos; auto).
    rewrite ED in K5, K6, K9, K10.
    assert (ET : x_p (arr_Advance eq o dt q) / x_rho (arr_Advance eq o dt q) = x_p q / x_rho q - (e_gamma eq - 1) * a_Q o * / 67108864).
    { rewrite K10, K1. field. lra. }
    assert (Hp' : 0 < x_p (arr_Advance eq o dt q)).
    { assert (0 < x_p (arr_Advance eq o dt q) / x_rho (arr_Advance eq o dt q)) as P by (rewrite ET; lra).
      replace (x_p (arr_Advance eq o dt q)) with (x_p (arr_Advance eq o dt q) / x_rho (arr_Advance eq o dt q) * x_rho (arr_Advance eq o dt q)) by (field; rewrite K1; lra).
      apply Rmult_lt_0_compat; [auto | rewrite K1; auto]. }
    assert (P0 : 0 <= nth 0 (fractions_of q) 0).
    { destruct HX as [HF _]. rewrite Forall_forall in HF. apply HF, nth_In. unfold fractions_of. rewrite app_length. cbn. lia. }
    assert (HC' : consistent eq (arr_Advance eq o dt q)).
    { apply arr_consistent; auto; rewrite ED; lra. }
    assert (HL' : (1 <= length (x_Y (arr_Advance eq o dt q)))%nat).
    { unfold fractions_of in K4. rewrite !app_length, !map_length in K4. cbn [length] in K4. lia. }
    destruct (IH (arr_Advance eq o dt q) HC' HL') as (A & B & C); [rewrite ET; lra | rewrite K6; lra | rewrite ET; lra |].
    rewrite A, B, C, K1, K5, K6, K9. repeat split; ring.
Qed.

(** Fuel out of nothing *)
Theorem arr_creates eq o dt q : consistent eq q -> (1 <= length (x_Y q))%nat -> T_switch o <= x_p q / x_rho q ->
  nth 0 (fractions_of q) 0 = 0 -> nth 0 (fractions_of (arr_Advance eq o dt q)) 0 = / 67108864.
Proof.
  intros HC HL HT H0. destruct (arr_cell eq o dt q HC HL) as (_ & _ & _ & _ & K5 & _). rewrite K5, H0.
  unfold arr_dX, row. rewrite H0. destruct (Rle_dec (T_switch o) (x_p q / x_rho q)); [|contradiction].
  destruct (Rle_dec (1 / 100000) 0); [lra|]. unfold arr_eps. ring.
Qed.

(** A delay of 1/20: the induction reaction runs backwards. *)
Definition short_delay : ign_options := mkIgn (1 / 5) 1 (1 / 20) 0 70 (6 / 5) 0 5 (3 / 2) (1 / 2) 7 (27 / 10).
Definition plain_eq : mix_eq := mkEq 2 1 1 1.
(** two of three species, half and half, at rest, temperature 1.2 *)
Definition half_cell : mix := mkMix 1 [0] (6 / 5) [1 / 2; 1 / 2] [] (6 / 5) 1.

Lemma half_fractions : fractions_of half_cell = [1 / 2; 1 / 2; 0].
Proof. unfold fractions_of, half_cell. cbn [x_rho x_Y map app fold_right]. replace (1 / 2 / 1) with (1 / 2) by field.
  replace (1 - (1 / 2 + (1 / 2 + 0))) with 0 by field. reflexivity. Qed.
Lemma half_consistent : consistent plain_eq half_cell.
Proof.
  unfold consistent. rewrite half_fractions. unfold plain_eq, half_cell, composition. cbn [e_gamma e_gm1 e_gm1_inv e_Msq x_rho x_p x_E x_mom fold_right].
  split; [lra|]. split; [lra|]. split; [field|]. split; [lra|]. split; [lra|]. split; [split|field].
  - apply Forall_cons; [lra|]. apply Forall_cons; [lra|]. apply Forall_cons; [lra|]. apply Forall_nil.
  - field.
Qed.

Lemma short_rate : ign_rate short_delay (6 / 5) < 0.
Proof.
  unfold ign_rate, short_delay. cbn [Yign Yinit tau R_B R_C R_E R2_A R2_C R2_E].
  replace (1 / 5 / 1 / (1 / 20)) with 4 by field.
  replace (70 * (1 - 6 / 5 / (6 / 5))) with 0 by field. rewrite exp_0.
  unfold Rpower. rewrite Rmult_0_l, exp_0.
  assert (1 < ln 4); [|lra].
  rewrite <- (ln_exp 1). apply ln_increasing; [apply exp_pos|]. pose proof exp_le_3. lra.
Qed.

Theorem ign_backwards dt : 0 < dt -> nth 0 (fractions_of half_cell) 0 < nth 0 (fractions_of (ign_Advance plain_eq short_delay dt half_cell)) 0.
Proof.
  intros Hdt. unfold ign_Advance. rewrite (kinetic_of_consistent _ _ half_consistent). rewrite half_fractions.
  unfold half_cell. cbn [k_T k_X k_rho k_S x_p x_rho x_S map]. replace (6 / 5 / 1) with (6 / 5) by field.
  unfold ign_react. cbn [row nth set_row].
  set (e := exp (- ign_rate short_delay (6 / 5) * dt)).
  assert (He : 1 < e).
  { unfold e. rewrite <- exp_0. apply exp_increasing. apply Rmult_lt_0_compat; [pose proof short_rate; lra | auto]. }
  destruct (Rle_dec (1 / 2 - (1 - e) * (1 / 2)) (Yign short_delay * (1 - 0))) as [L | _].
  { cbn [short_delay Yign] in L. lra. }
  rewrite !Rmult_0_l, !Rplus_0_r, !Rminus_0_r. rewrite !(unit_clamp_id 0) by lra.
  set (y := unit_clamp (1 / 2 + (1 - e) * (1 / 2))).
  assert (Hy : y < 1 / 2 /\ 0 <= y).
  { unfold y. split; [|apply unit_clamp_range]. unfold unit_clamp. apply Rle_lt_trans with (Rmax (1 / 2 + (1 - e) * (1 / 2)) 0); [apply Rmin_l|].
    apply Rmax_lub_lt; lra. }
  unfold CompleteFromKineticState, fractions_of. cbn [k_X k_rho x_rho x_Y removelast map app nth rsum fold_right].
  apply Rmult_lt_reg_r with (1 / 2 - (1 - e) * (1 / 2) + (y + (0 + 0))); [lra|]. field_simplify; lra.
Qed.

(** After ignition: two first order decays one after the other. *)
Lemma react_ignited o dt T x0 x1 x2 rest : 0 <= ign_rate o T -> 0 <= dt -> composition (x0 :: x1 :: x2 :: rest) ->
  let e := exp (- (ign_rate o T * dt)) in let e2 := exp (- (exp (o_C o * (1 - o_E o / T)) * dt)) in
  x0 * e <= Yign o * (1 - x2) ->
  exists x2', fst (ign_react o dt T (x0 :: x1 :: x2 :: rest)) = x0 * e * e2 :: (x1 + x0 * (1 - e)) * e2 :: x2' :: rest.
Proof.
  intros Hr Hdt [HF HS] e e2 L. inversion HF as [|? ? P0 T0]; subst. inversion T0 as [|? ? P1 T1]; subst. inversion T1 as [|? ? P2 T2]; subst.
  cbn [fold_right] in HS. pose proof (rsum_nonneg rest T2) as PR. unfold rsum in PR.
  unfold ign_react. cbn [row nth set_row fst].
  replace (- ign_rate o T * dt) with (- (ign_rate o T * dt)) by ring. fold e.
  assert (A : 0 <= 1 - e < 1) by (apply exp_neg_range, Rmult_le_pos; auto).
  assert (F0 : 0 <= (1 - e) * x0 <= x0).
  { split; [apply Rmult_le_pos; lra|]. rewrite <- (Rmult_1_l x0) at 2. apply Rmult_le_compat_r; lra. }
  rewrite (unit_clamp_id (x1 + (1 - e) * x0)) by lra.
  replace (- exp (o_C o * (1 - o_E o / T)) * dt) with (- (exp (o_C o * (1 - o_E o / T)) * dt)) by ring. fold e2.
  destruct (Rle_dec (x0 - (1 - e) * x0) (Yign o * (1 - x2))) as [_ | N]; [|exfalso; apply N; lra].
  eexists. f_equal; [ring|]. f_equal; ring.
Qed.

Lemma ign_fractions eq o dt q : consistent eq q -> sane_options o -> 0 <= dt -> (2 <= length (x_Y q))%nat ->
  fractions_of (ign_Advance eq o dt q) = fst (ign_react o dt (x_p q / x_rho q) (fractions_of q)).
Proof.
  intros HC HO Hdt HL. pose proof HC as (_ & _ & _ & Hr & _ & HX & _).
  assert (HLX : (3 <= length (fractions_of q))%nat) by (unfold fractions_of; rewrite app_length, map_length; cbn [length]; lia).
  unfold ign_Advance. rewrite (kinetic_of_consistent eq q HC). cbn [k_rho k_T k_X k_S].
  destruct (fractions_of q) as [|x0 [|x1 [|x2 rest]]]; cbn [length] in HLX; try lia.
  destruct (react_core o dt (x_p q / x_rho q) x0 x1 x2 rest (rate_nonneg o _ HO) Hdt HX) as (y0 & y1 & y2 & E & A & B & C & D & _).
  rewrite E. cbn [fst].
  assert (HS : rsum (y0 :: y1 :: y2 :: rest) = 1).
  { destruct HX as [_ HX]. cbn [fold_right] in HX. unfold rsum. cbn [fold_right]. lra. }
  destruct (complete_keeps eq q (x_p q / x_rho q + Tdiff o * (y2 - x2)) (y0 :: y1 :: y2 :: rest) HC HS) as (K1 & _ & _ & K4 & _).
  unfold fractions_of. rewrite K1, K4. apply fractions_rebuilt; [lra | auto | discriminate].
Qed.

Theorem ign_kinetics eq o dt q : consistent eq q -> sane_options o -> 0 <= dt -> (2 <= length (x_Y q))%nat ->
  let X := fractions_of q in let X' := fractions_of (ign_Advance eq o dt q) in
  let T := x_p q / x_rho q in
  let e := exp (- ((- ln (Yign o / Yinit o / tau o) + Rpower T (R_B o) * exp (R_C o * (1 - R_E o / T)) + R2_A o * exp (R2_C o * (1 - R2_E o / T))) * dt)) in
  let e2 := exp (- (exp (o_C o * (1 - o_E o / T)) * dt)) in
  (Yign o * (1 - nth 2 X 0) < nth 0 X 0 * e ->
     nth 0 X' 0 = nth 0 X 0 * e /\ nth 1 X' 0 = nth 1 X 0 + nth 0 X 0 * (1 - e) /\ nth 2 X' 0 = nth 2 X 0) /\
  (nth 0 X 0 * e <= Yign o * (1 - nth 2 X 0) ->
     nth 0 X' 0 = nth 0 X 0 * e * e2 /\ nth 1 X' 0 = (nth 1 X 0 + nth 0 X 0 * (1 - e)) * e2).
Proof.
  intros HC HO Hdt HL X X' T e e2. unfold X'. rewrite (ign_fractions eq o dt q HC HO Hdt HL).
  pose proof HC as (_ & _ & _ & Hr & _ & HX & _). fold X in HX |- *. fold T.
  assert (HLX : (3 <= length X)%nat) by (unfold X, fractions_of; rewrite app_length, map_length; cbn [length]; lia).
  clearbody X. destruct X as [|x0 [|x1 [|x2 rest]]]; cbn [length] in HLX; try lia. cbn [nth]. split; intros L.
  - destruct (react_core o dt T x0 x1 x2 rest (rate_nonneg o _ HO) Hdt HX) as (y0 & y1 & y2 & E & A & B & C & D & F).
    assert (Ee : exp (- ign_rate o T * dt) = e) by (unfold e, ign_rate; f_equal; ring).
    rewrite Ee in F. destruct (F ltac:(lra)) as [F0 F2]. rewrite E. cbn [fst nth]. repeat split; lra.
  - destruct (react_ignited o dt T x0 x1 x2 rest (rate_nonneg o _ HO) Hdt HX L) as (y & E). rewrite E. cbn [nth]. auto.
Qed.

(** Many steps *)
Lemma ign_consistent eq o dt q : consistent eq q -> sane_options o -> 0 <= dt -> (2 <= length (x_Y q))%nat -> 0 <= Tdiff o ->
  consistent eq (ign_Advance eq o dt q) /\ length (x_Y (ign_Advance eq o dt q)) = length (x_Y q).
Proof.
  intros HC HO Hdt HL HT. destruct (ign_cell eq o dt q HC HO Hdt HL) as (K1 & K2 & K3 & K4 & K5 & _ & _ & K8 & _ & K10 & K11 & _).
  pose proof HC as (G1 & G2 & G3 & Hr & Hp & HX & HE).
  set (q' := ign_Advance eq o dt q) in *. set (d := nth 2 (fractions_of q') 0 - nth 2 (fractions_of q) 0) in *.
  assert (Hd : 0 <= Tdiff o * d) by (apply Rmult_le_pos; unfold d; lra).
  assert (Ep : x_p q' = x_p q + x_rho q * (Tdiff o * d)).
  { replace (x_p q') with (x_p q' / x_rho q' * x_rho q') by (field; rewrite K1; lra). rewrite K10, K1. field. lra. }
  split.
  - unfold consistent. split; [auto|]. split; [auto|]. split; [auto|]. split; [rewrite K1; auto|]. split.
    + rewrite Ep. assert (0 <= x_rho q * (Tdiff o * d)) by (apply Rmult_le_pos; lra). lra.
    + split; [exact K4|]. rewrite K11, K1, K2, Ep, HE. field. lra.
  - unfold fractions_of in K5. rewrite !app_length, !map_length in K5. cbn [length] in K5. lia.
Qed.
Lemma ign_steps eq o dts : sane_options o -> 0 <= Tdiff o -> Forall (fun dt => 0 <= dt) dts -> forall q, consistent eq q -> (2 <= length (x_Y q))%nat ->
  let q' := fold_left (fun q dt => ign_Advance eq o dt q) dts q in
  consistent eq q' /\ x_rho q' = x_rho q /\ x_mom q' = x_mom q /\ x_S q' = x_S q /\
  nth 0 (fractions_of q') 0 <= nth 0 (fractions_of q) 0 /\ nth 2 (fractions_of q) 0 <= nth 2 (fractions_of q') 0 /\
  x_E q' = x_E q + x_rho q * Tdiff o * (nth 2 (fractions_of q') 0 - nth 2 (fractions_of q) 0) / (e_gamma eq - 1).
Proof.
  intros HO HT HF. induction HF as [|dt dts Hdt HF IH]; intros q HC HL q'.
  - unfold q'. cbn [fold_left]. repeat (split; [auto; lra|]). field. destruct HC. lra.
  - unfold q'. cbn [fold_left]. destruct (ign_consistent eq o dt q HC HO Hdt HL HT) as [HC' HL'].
    destruct (ign_cell eq o dt q HC HO Hdt HL) as (K1 & K2 & K3 & _ & _ & _ & K7 & K8 & _ & _ & K11 & _).
    destruct (IH (ign_Advance eq o dt q) HC' ltac:(lia)) as (I0 & I1 & I2 & I3 & I4 & I5 & I6).
    split; [exact I0|]. rewrite I1, I2, I3, K1, K2, K3. split; [auto|]. split; [auto|]. split; [auto|]. split; [lra|]. split; [lra|].
    rewrite I6, K11, K1. field. destruct HC. lra.
Qed.
