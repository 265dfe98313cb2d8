(** C40 and C41: reaction steps of PerfectGasMix. *)
From Coq Require Import List Reals Lra Lia.
From Verif Require Import KineticsModel KineticsSpec KineticsProofs.
Import ListNotations.
Local Open Scope R_scope.

(** C40: for every consistent cell with at least two species, every time step and all options with rates which are not
    negative: density, momentum and passive scalars are kept, the new fractions are a composition again, fractions
    other than fuel, radical and product are untouched, fuel does not increase, product does not decrease, and
    temperature and energy rise by what was burnt. *)
Theorem C40_step : forall (eq : mix_eq) (o : ign_options) (dt : R) (q : mix),
  consistent eq q -> sane_options o -> 0 <= dt -> (2 <= length (x_Y q))%nat ->
  let q' := ign_Advance eq o dt q in
  let X := fractions_of q in let X' := fractions_of q' in
  x_rho q' = x_rho q /\ x_mom q' = x_mom q /\ x_S q' = x_S q /\
  composition X' /\ length X' = length X /\ (forall i, (3 <= i)%nat -> nth i X' 0 = nth i X 0) /\
  nth 0 X' 0 <= nth 0 X 0 /\ nth 2 X 0 <= nth 2 X' 0 /\
  nth 0 X' 0 + nth 1 X' 0 + nth 2 X' 0 = nth 0 X 0 + nth 1 X 0 + nth 2 X 0 /\
  x_p q' / x_rho q' = x_p q / x_rho q + Tdiff o * (nth 2 X' 0 - nth 2 X 0) /\
  x_E q' = x_E q + x_rho q * Tdiff o * (nth 2 X' 0 - nth 2 X 0) / (e_gamma eq - 1) /\
  x_a q' = sqrt (e_gamma eq * (x_p q' / x_rho q')).
Proof. exact ign_cell. Qed.
Print Assumptions C40_step.

(** Fuel decays into radicals with the induction rate; product only appears once the fuel is below the ignition level,
    then fuel and radicals decay with the second rate. *)
Theorem C40_rates : forall (eq : mix_eq) (o : ign_options) (dt : R) (q : mix),
  consistent eq q -> sane_options o -> 0 <= dt -> (2 <= length (x_Y q))%nat ->
  let X := fractions_of q in let X' := fractions_of (ign_Advance eq o dt q) in
  let T := x_p q / x_rho q in
  let e := exp (- ((- ln (Yign o / Yinit o / tau o) + Rpower T (R_B o) * exp (R_C o * (1 - R_E o / T)) + R2_A o * exp (R2_C o * (1 - R2_E o / T))) * dt)) in
  let e2 := exp (- (exp (o_C o * (1 - o_E o / T)) * dt)) in
  (Yign o * (1 - nth 2 X 0) < nth 0 X 0 * e ->
     nth 0 X' 0 = nth 0 X 0 * e /\ nth 1 X' 0 = nth 1 X 0 + nth 0 X 0 * (1 - e) /\ nth 2 X' 0 = nth 2 X 0) /\
  (nth 0 X 0 * e <= Yign o * (1 - nth 2 X 0) ->
     nth 0 X' 0 = nth 0 X 0 * e * e2 /\ nth 1 X' 0 = (nth 1 X 0 + nth 0 X 0 * (1 - e)) * e2).
Proof. exact ign_kinetics. Qed.
Print Assumptions C40_rates.

(** Any number of steps of any sizes. *)
Theorem C40_history : forall (eq : mix_eq) (o : ign_options) (dts : list R) (q : mix),
  sane_options o -> 0 <= Tdiff o -> Forall (fun dt => 0 <= dt) dts -> consistent eq q -> (2 <= length (x_Y q))%nat ->
  let q' := fold_left (fun q dt => ign_Advance eq o dt q) dts q in
  consistent eq q' /\ x_rho q' = x_rho q /\ x_mom q' = x_mom q /\ x_S q' = x_S q /\
  nth 0 (fractions_of q') 0 <= nth 0 (fractions_of q) 0 /\ nth 2 (fractions_of q) 0 <= nth 2 (fractions_of q') 0 /\
  x_E q' = x_E q + x_rho q * Tdiff o * (nth 2 (fractions_of q') 0 - nth 2 (fractions_of q) 0) / (e_gamma eq - 1).
Proof. intros eq o dts q HO HT HF HC HL. exact (ign_steps eq o dts HO HT HF q HC HL). Qed.
Print Assumptions C40_history.

(** Every cell of a row is advanced exactly once, whatever the chunk width and whatever was in the array before. *)
Theorem C40_rows : forall (eq : mix_eq) (o : ign_options) (dt : R) (w : nat) (stale row : list mix),
  (1 <= w)%nat -> length stale = w ->
  AdvanceRow w (ign_Advance eq o dt) stale row = Some (map (ign_Advance eq o dt) row).
Proof. intros. apply advance_row; auto. Qed.
Print Assumptions C40_rows.

(** Without the hypothesis on the options fuel can increase: the delay enters as ln(Yign / Yinit / tau), so for
    tau < Yign / Yinit the induction reaction runs backwards.  All other options have their default value. *)
Theorem C40_short_delay : consistent plain_eq half_cell /\
  forall dt, 0 < dt -> nth 0 (fractions_of half_cell) 0 < nth 0 (fractions_of (ign_Advance plain_eq short_delay dt half_cell)) 0.
Proof. split; [exact half_consistent | exact ign_backwards]. Qed.
Print Assumptions C40_short_delay.

(** Two species and a remainder at temperature 1.2 with the default options. *)
Example C40_example :
  let o := mkIgn (1 / 5) 1 1 0 70 (6 / 5) 0 5 (3 / 2) (1 / 2) 7 (27 / 10) in
  consistent plain_eq half_cell /\ sane_options o /\ 0 <= 1 / 10 /\ (2 <= length (x_Y half_cell))%nat /\
  nth 0 (fractions_of half_cell) 0 = 1 / 2.
Proof.
  cbv zeta. split; [exact half_consistent|]. split.
  - unfold sane_options. cbn [Yign Yinit tau R2_A]. replace (1 / 5 / 1 / 1) with (1 / 5) by field. lra.
  - split; [lra|]. split; [cbn; lia|]. rewrite half_fractions. reflexivity.
Qed.

(** C41, the part which holds: at or above the switch temperature with a fuel fraction of at least 1e-5, fuel decays,
    the fractions stay a composition, the energy rises by Q per burnt fuel. *)
Theorem C41_burn_partial : forall (eq : mix_eq) (o : arr_options) (dt : R) (q : mix),
  consistent eq q -> (1 <= length (x_Y q))%nat -> 0 <= a_B o -> 0 <= dt ->
  T_switch o <= x_p q / x_rho q -> 1 / 100000 <= nth 0 (fractions_of q) 0 ->
  let q' := arr_Advance eq o dt q in
  let X := fractions_of q in let X' := fractions_of q' in
  0 <= nth 0 X' 0 <= nth 0 X 0 /\
  nth 0 X' 0 = nth 0 X 0 * exp (- (a_B o * dt * exp (a_EA o * (1 - 1 / (x_p q / x_rho q))))) /\
  composition X' /\ x_E q' = x_E q + a_Q o * x_rho q * (nth 0 X 0 - nth 0 X' 0).
Proof. exact arr_burn. Qed.
Print Assumptions C41_burn_partial.

(** In every case density, momentum, passive scalars, the sum of the fractions and all fractions but the first two are
    kept; the first two exchange, and energy and pressure follow the exchange. *)
Theorem C41_exchange : forall (eq : mix_eq) (o : arr_options) (dt : R) (q : mix),
  consistent eq q -> (1 <= length (x_Y q))%nat ->
  let q' := arr_Advance eq o dt q in
  let X := fractions_of q in let X' := fractions_of q' in
  let burnt := nth 0 X 0 - nth 0 X' 0 in
  x_rho q' = x_rho q /\ x_mom q' = x_mom q /\ x_S q' = x_S q /\ length X' = length X /\
  nth 1 X' 0 = nth 1 X 0 + burnt /\ (forall i, (2 <= i)%nat -> nth i X' 0 = nth i X 0) /\
  fold_right Rplus 0 X' = 1 /\
  x_E q' = x_E q + a_Q o * x_rho q * burnt /\
  x_p q' = x_p q + (e_gamma eq - 1) * a_Q o * x_rho q * burnt /\ x_a q' = sqrt (e_gamma eq * x_p q' / x_rho q').
Proof.
  intros eq o dt q HC HL q' X X' burnt.
  destruct (arr_cell eq o dt q HC HL) as (K1 & K2 & K3 & K4 & K5 & K6 & K7 & K8 & K9 & K10 & K11).
  fold q' in K1, K2, K3, K4, K5, K6, K7, K8, K9, K10, K11. fold X X' in K4, K5, K6, K7, K8. fold X in K9, K10.
  unfold burnt. rewrite K5. split; [auto|]. split; [auto|]. split; [auto|]. split; [auto|]. split; [lra|]. split; [auto|]. split; [auto|].
  split; [rewrite K9; ring|]. split; [rewrite K10; ring | auto].
Qed.
Print Assumptions C41_exchange.

(** Every cell of a row is advanced exactly once. *)
Theorem C41_rows : forall (eq : mix_eq) (o : arr_options) (dt : R) (w : nat) (stale row : list mix),
  (1 <= w)%nat -> length stale = w ->
  AdvanceRow w (arr_Advance eq o dt) stale row = Some (map (arr_Advance eq o dt) row).
Proof. intros. apply advance_row; auto. Qed.
Print Assumptions C41_rows.

(** The claim fails: below the switch temperature each step, however small, turns 2^-26 of product into fuel and takes
    the heat out of the cell; n steps do it n times. *)
Theorem C41_cold_refuted : forall (eq : mix_eq) (o : arr_options) (dt : R) (n : nat) (q : mix),
  0 <= a_Q o -> consistent eq q -> (1 <= length (x_Y q))%nat -> x_p q / x_rho q < T_switch o ->
  INR n * / 67108864 <= nth 1 (fractions_of q) 0 -> INR n * ((e_gamma eq - 1) * a_Q o * / 67108864) < x_p q / x_rho q ->
  let q' := iterate n (arr_Advance eq o dt) q in
  nth 0 (fractions_of q') 0 = nth 0 (fractions_of q) 0 + INR n * / 67108864 /\
  nth 1 (fractions_of q') 0 = nth 1 (fractions_of q) 0 - INR n * / 67108864 /\
  x_E q' = x_E q - INR n * (a_Q o * x_rho q * / 67108864).
Proof. intros eq o dt n q HQ. exact (arr_cold_steps eq o dt HQ n q). Qed.
Print Assumptions C41_cold_refuted.

(** And above the switch temperature a cell without fuel gets some. *)
Theorem C41_creation_refuted : forall (eq : mix_eq) (o : arr_options) (dt : R) (q : mix),
  consistent eq q -> (1 <= length (x_Y q))%nat -> T_switch o <= x_p q / x_rho q ->
  nth 0 (fractions_of q) 0 = 0 -> nth 0 (fractions_of (arr_Advance eq o dt q)) 0 = / 67108864.
Proof. exact arr_creates. Qed.
Print Assumptions C41_creation_refuted.

(** The defaults with the cell above (T = 1.2 >= 1.05), a colder cell (T = 1), 1000 steps, and a burnt cell. *)
Example C41_example :
  let o := mkArr (15 / 2) 10 (1 / 25) (21 / 20) in
  let cold := mkMix 1 [0] 1 [1 / 2] [] 1 1 in
  let burnt := mkMix 1 [0] 2 [0] [] 2 1 in
  consistent plain_eq half_cell /\ T_switch o <= x_p half_cell / x_rho half_cell /\ 1 / 100000 <= nth 0 (fractions_of half_cell) 0 /\
  consistent plain_eq cold /\ x_p cold / x_rho cold < T_switch o /\ INR 1000 * / 67108864 <= nth 1 (fractions_of cold) 0 /\
  INR 1000 * ((e_gamma plain_eq - 1) * a_Q o * / 67108864) < x_p cold / x_rho cold /\
  consistent plain_eq burnt /\ T_switch o <= x_p burnt / x_rho burnt /\ nth 0 (fractions_of burnt) 0 = 0.
Proof.
  cbv zeta. replace (INR 1000) with 1000 by (rewrite INR_IZR_INZ; reflexivity).
  assert (F1 : fractions_of (mkMix 1 [0] 1 [1 / 2] [] 1 1) = [1 / 2; 1 / 2]).
  { unfold fractions_of. cbn [x_rho x_Y map app fold_right]. replace (1 / 2 / 1) with (1 / 2) by field.
    replace (1 - (1 / 2 + 0)) with (1 / 2) by field. reflexivity. }
  assert (F2 : fractions_of (mkMix 1 [0] 2 [0] [] 2 1) = [0; 1]).
  { unfold fractions_of. cbn [x_rho x_Y map app fold_right]. replace (0 / 1) with 0 by field.
    replace (1 - (0 + 0)) with 1 by ring. reflexivity. }
  split; [exact half_consistent|]. split; [cbn; lra|]. split; [rewrite half_fractions; cbn; lra|].
  split.
  { unfold consistent. rewrite F1. cbn [plain_eq e_gamma e_gm1 e_gm1_inv e_Msq x_rho x_p x_E x_mom fold_right]. unfold composition.
    split; [lra|]. split; [lra|]. split; [field|]. split; [lra|]. split; [lra|]. split; [split|field].
    - apply Forall_cons; [lra|]. apply Forall_cons; [lra|]. apply Forall_nil.
    - cbn. field. }
  split; [cbn; lra|]. split; [rewrite F1; cbn; lra|]. split; [cbn; lra|]. split.
  { unfold consistent. rewrite F2. cbn [plain_eq e_gamma e_gm1 e_gm1_inv e_Msq x_rho x_p x_E x_mom fold_right]. unfold composition.
    split; [lra|]. split; [lra|]. split; [field|]. split; [lra|]. split; [lra|]. split; [split|field].
    - apply Forall_cons; [lra|]. apply Forall_cons; [lra|]. apply Forall_nil.
    - cbn. ring. }
  split; [cbn; lra|]. rewrite F2. reflexivity.
Qed.
