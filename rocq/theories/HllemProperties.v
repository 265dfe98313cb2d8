(** C36 (HLLEM consistency), C62 (contact and shear waves at rest), C63 (bounds of mass fractions). *)
From Coq Require Import List Reals Lra Lia Bool.
From Verif Require Import GasModel GasSpec GasProofs HllemModel HllemSpec HllemProofs.
Import ListNotations.
Local Open Scope R_scope.

(** A moving state in two dimensions with two scalars: rho = 2, v = (3/2, -1), p = 1, gamma = 3/2. *)
Definition sample (u : R) : mstate := mkM 2 [2 * u; -2] (u * u + 3) [1; 1 / 2] 1 (1 / 2) (3 / 2).
Lemma sample_admissible u : mix_admissible 2 1 (sample u).
Proof. unfold sample, mix_admissible, kinetic. cbn. repeat split; try lra. Qed.

(** ** C36 *)

(** Vectorised flux: every dimension and direction, with and without Larrouturou. *)
Theorem C36_consistent_lane : forall lar dim Msq q d, (1 <= dim <= 3)%nat -> (d < dim)%nat -> 0 < Msq ->
  mix_admissible dim Msq q -> HllemFlux_lane lar dim Msq q q d = euler_flux Msq q d.
Proof. exact lane_consistent. Qed.
Print Assumptions C36_consistent_lane.

Example C36_consistent_lane_example : f_Y (HllemFlux_lane true 2 1 (sample (-3)) (sample (-3)) 0) = [-3; - (3 / 2)].
Proof.
  rewrite C36_consistent_lane; try lia; try lra; [|apply sample_admissible]. cbn. f_equal; [|f_equal]; field.
Qed.

(** Scalar flux without Larrouturou, one and two dimensions, whatever the flux object held before. *)
Theorem C36_consistent_scalar_partial : forall dim Msq q d old, (1 <= dim <= 2)%nat -> (d < dim)%nat -> 0 < Msq ->
  mix_admissible dim Msq q -> HllemFlux false dim Msq q q d old = euler_flux Msq q d.
Proof. intros. apply scalar_consistent; auto. discriminate. Qed.
Print Assumptions C36_consistent_scalar_partial.

(** Scalar flux with Larrouturou: only for a mass flux which is not negative. *)
Theorem C36_consistent_larrouturou_partial : forall dim Msq q d old, (1 <= dim <= 2)%nat -> (d < dim)%nat -> 0 < Msq ->
  mix_admissible dim Msq q -> 0 <= nth d (m_mom q) 0 -> HllemFlux true dim Msq q q d old = euler_flux Msq q d.
Proof. intros. apply scalar_consistent; auto. Qed.
Print Assumptions C36_consistent_larrouturou_partial.

Example C36_consistent_scalar_example : forall old,
  HllemFlux true 2 1 (sample 3) (sample 3) 0 old = mkF 6 [19; -6] 39 [3; 3 / 2] /\
  HllemFlux false 2 1 (sample (-3)) (sample (-3)) 0 old = mkF (-6) [19; 6] (-39) [-3; -3 / 2].
Proof.
  intros old. split.
  - rewrite C36_consistent_larrouturou_partial; try lia; try lra; [|apply sample_admissible | cbn; lra].
    unfold euler_flux. cbn. eqs; field.
  - rewrite C36_consistent_scalar_partial; try lia; try lra; [|apply sample_admissible].
    unfold euler_flux. cbn. eqs; field.
Qed.

(** What is missing is false: for a negative mass flux all scalars get the opposite of their physical flux. *)
Theorem C36_wrong_sign_refuted : forall dim Msq q d old, (1 <= dim <= 2)%nat -> (d < dim)%nat -> 0 < Msq ->
  mix_admissible dim Msq q -> nth d (m_mom q) 0 < 0 ->
  f_Y (HllemFlux true dim Msq q q d old) = map Ropp (f_Y (euler_flux Msq q d)).
Proof. exact scalars_wrong. Qed.
Print Assumptions C36_wrong_sign_refuted.

Example C36_wrong_sign_example : forall old,
  f_Y (HllemFlux true 2 1 (sample (-3)) (sample (-3)) 0 old) <> f_Y (euler_flux 1 (sample (-3)) 0).
Proof.
  intros old. rewrite C36_wrong_sign_refuted; try lia; try lra; [|apply sample_admissible | cbn; lra].
  cbn. intros E. injection E as E _. lra.
Qed.

(** In three dimensions the scalar version leaves the mass flux and the normal momentum flux as they were. *)
Theorem C36_three_dimensions_refuted : forall lar Msq left right d old, (d < 3)%nat ->
  f_rho (HllemFlux lar 3 Msq left right d old) = f_rho old /\
  nth d (f_mom (HllemFlux lar 3 Msq left right d old)) 0 = nth d (f_mom old) 0.
Proof. intros lar Msq left right d old Hd. split; [reflexivity|]. destruct d as [|[|[|d]]]; try lia; reflexivity. Qed.
Print Assumptions C36_three_dimensions_refuted.

Example C36_three_dimensions_example : forall q : mstate, m_mom q = [1; 0; 0] -> m_rho q = 1 ->
  f_rho (HllemFlux false 3 1 q q 0 (mkF 0 [0; 0; 0] 0 [])) <> f_rho (euler_flux 1 q 0).
Proof.
  intros q E1 E2. destruct (C36_three_dimensions_refuted false 1 q q 0 (mkF 0 [0; 0; 0] 0 []) ltac:(lia)) as [-> _].
  unfold euler_flux. cbn. rewrite E1, E2. cbn. lra.
Qed.

(** Both versions agree for all pairs of states in one and two dimensions, with Larrouturou if the mass flux is
    not negative. *)
Theorem C36_agree_partial : forall lar dim Msq left right d old, (1 <= dim <= 2)%nat -> (d < dim)%nat ->
  (lar = true -> 0 <= f_rho (HllemFlux_lane lar dim Msq left right d)) ->
  HllemFlux lar dim Msq left right d old = HllemFlux_lane lar dim Msq left right d.
Proof. exact agree. Qed.
Print Assumptions C36_agree_partial.

Example C36_agree_example : forall u v old,
  HllemFlux false 2 1 (sample u) (sample v) 1 old = HllemFlux_lane false 2 1 (sample u) (sample v) 1.
Proof. intros. apply C36_agree_partial; try lia; discriminate. Qed.

(** The interface pressure p_star returned next to the flux is the same in both versions and the pressure of
    the state for equal states. *)
Theorem C36_pressure : forall lar dim Msq q d, (1 <= dim <= 3)%nat -> (d < dim)%nat -> 0 < Msq ->
  mix_admissible dim Msq q ->
  (forall r, HllemPressure lane_avg lar Msq q r d = HllemPressure scalar_avg lar Msq q r d) /\
  HllemPressure lane_avg lar Msq q q d = m_p q.
Proof.
  intros lar dim Msq q d Hdim Hd HM (Hl & Hr & Hp & Ha & Hg & HE). rewrite avg_eq. split; [reflexivity|].
  apply pressure_same; auto.
Qed.
Print Assumptions C36_pressure.

(** ** C62 *)

(** A contact and shear wave at rest: rho = 4 | 1, tangential velocity 1 | -2, p = 1. *)
Definition contact_left : mstate := mkM 4 [0; 4] 4 [1] 1 (1 / 2) (3 / 2).
Definition contact_right : mstate := mkM 1 [0; -2] 4 [1] 1 1 (3 / 2).
Lemma contact_sample : mix_admissible 2 1 contact_left /\ mix_admissible 2 1 contact_right /\
  resting_contact 0 contact_left contact_right.
Proof. unfold mix_admissible, resting_contact, kinetic. cbn. repeat split; try lra. Qed.

(** Scalar version, one and two dimensions, with and without Larrouturou: only the pressure acts, nothing is
    transported. *)
Theorem C62_scalar_partial : forall lar dim left right d old, (1 <= dim <= 2)%nat -> (d < dim)%nat ->
  mix_admissible dim 1 left -> mix_admissible dim 1 right -> resting_contact d left right ->
  HllemFlux lar dim 1 left right d old = pressure_flux dim d (m_p left) (length (m_Y left)).
Proof. exact contact_scalar. Qed.
Print Assumptions C62_scalar_partial.

(** Vectorised version, one and two dimensions, and three dimensions with Larrouturou. *)
Theorem C62_vectorised_partial : forall lar dim left right d, (1 <= dim <= 3)%nat -> (d < dim)%nat -> (dim = 3%nat -> lar = true) ->
  mix_admissible dim 1 left -> mix_admissible dim 1 right -> resting_contact d left right ->
  HllemFlux_lane lar dim 1 left right d = pressure_flux dim d (m_p left) (length (m_Y left)).
Proof. exact contact_lane. Qed.
Print Assumptions C62_vectorised_partial.

Example C62_example : forall old, HllemFlux false 2 1 contact_left contact_right 0 old = mkF 0 [1; 0] 0 [0] /\
  HllemFlux_lane true 2 1 contact_left contact_right 0 = mkF 0 [1; 0] 0 [0].
Proof.
  intros old. destruct contact_sample as (A & B & C). split.
  - rewrite C62_scalar_partial; auto; try lia; reflexivity.
  - rewrite C62_vectorised_partial; auto; try lia; reflexivity.
Qed.

(** Three dimensions, vectorised, without Larrouturou: all components but the normal momentum are right, and
    that one is right only if the density or the mean velocity in the next direction vanishes. *)
Theorem C62_three_dimensions_refuted : forall left right d, (d < 3)%nat ->
  mix_admissible 3 1 left -> mix_admissible 3 1 right -> resting_contact d left right ->
  m_rho left <> m_rho right ->
  nth (Nat.modulo (d + 1) 3) (m_mom left) 0 / m_rho left > 0 -> nth (Nat.modulo (d + 1) 3) (m_mom right) 0 / m_rho right > 0 ->
  exists p', p' <> m_p left /\ HllemFlux_lane false 3 1 left right d = pressure_flux 3 d p' (length (m_Y left)).
Proof.
  intros left right d Hd Al Ar Hc Hne H1 H2. destruct (contact_lane_3d left right d Hd Al Ar Hc) as (S & HS & ->).
  eexists. split; [|reflexivity]. rewrite !nth_velocities. unfold next_dir.
  assert (P : 0 < scalar_avg (sqrt (m_rho left)) (sqrt (m_rho right)) (nth (Nat.modulo (d + 1) 3) (m_mom left) 0 / m_rho left)
                 (nth (Nat.modulo (d + 1) 3) (m_mom right) 0 / m_rho right)).
  { apply avg_pos; auto; apply sqrt_lt_R0; [apply Al | apply Ar]. }
  set (v := scalar_avg _ _ _ _) in *. clearbody v. intros E.
  assert (Z : S / 2 * (m_rho right - m_rho left) * v = 0) by lra.
  apply Rmult_integral in Z. destruct Z as [Z | Z]; [|lra]. apply Rmult_integral in Z. destruct Z; lra.
Qed.
Print Assumptions C62_three_dimensions_refuted.

Example C62_three_dimensions_example :
  let l := mkM 4 [0; 4; 0] 4 [] 1 1 (3 / 2) in let r := mkM 1 [0; 1; 0] (5 / 2) [] 1 1 (3 / 2) in
  exists p', p' <> 1 /\ HllemFlux_lane false 3 1 l r 0 = pressure_flux 3 0 p' 0.
Proof.
  intros l r. apply (C62_three_dimensions_refuted l r 0); try lia; unfold mix_admissible, resting_contact, kinetic; cbn;
    repeat split; try lra.
Qed.

(** A reference Mach number other than 1 in two dimensions: mass crosses a contact at rest with a common
    tangential velocity. *)
Theorem C62_mach_number_refuted : forall Msq rhoL rhoR v E1 E2 Y1 Y2 p a1 a2 g old,
  let left := mkM rhoL [0; rhoL * v] E1 Y1 p a1 g in let right := mkM rhoR [0; rhoR * v] E2 Y2 p a2 g in
  0 < Msq -> Msq <> 1 -> v <> 0 -> rhoL <> rhoR -> mix_admissible 2 Msq left -> mix_admissible 2 Msq right ->
  length Y1 = length Y2 ->
  resting_contact 0 left right /\
  f_rho (HllemFlux false 2 Msq left right 0 old) <> 0 /\ f_rho (HllemFlux_lane false 2 Msq left right 0) <> 0.
Proof.
  intros Msq rhoL rhoR v E1 E2 Y1 Y2 p a1 a2 g old left right HM HM1 Hv Hrho Al Ar LY.
  destruct (mass_flux_msq Msq rhoL rhoR v E1 E2 Y1 Y2 p a1 a2 g old HM Al Ar LY) as (c & Hc & E3 & E4).
  fold left right in E3, E4. rewrite E3, E4.
  assert (N : c * (v * v) * (rhoR - rhoL) * (1 - Msq) <> 0).
  { repeat apply Rmult_integral_contrapositive_currified; lra. }
  repeat split; auto.
Qed.
Print Assumptions C62_mach_number_refuted.

Example C62_mach_number_example : forall old,
  f_rho (HllemFlux false 2 2 (mkM 4 [0; 4 * 1] 6 [] 1 1 (3 / 2)) (mkM 1 [0; 1 * 1] 3 [] 1 1 (3 / 2)) 0 old) <> 0.
Proof.
  intros old. refine (proj1 (proj2 (C62_mach_number_refuted 2 4 1 1 6 3 [] [] 1 1 1 (3 / 2) old _ _ _ _ _ _ _))); try lra; auto;
    unfold mix_admissible, kinetic; cbn; repeat split; try lra.
Qed.

(** ** C63 *)

(** One conservative step of a cell between two neighbours with time step over cell size [lam]: if the new
    density is positive and at most the mass of the cell flows out, every new mass fraction lies within any bounds
    of the three old ones.  Vectorised version with Larrouturou, any dimension. *)
Theorem C63_mass_fractions : forall dim Msq a b c d lam k lo hi,
  length (m_Y a) = length (m_Y b) -> length (m_Y c) = length (m_Y b) -> (k < length (m_Y b))%nat ->
  let F := HllemFlux_lane true dim Msq a b d in let G := HllemFlux_lane true dim Msq b c d in
  let rho' := m_rho b + lam * (f_rho F - f_rho G) in
  let y' := nth k (m_Y b) 0 + lam * (nth k (f_Y F) 0 - nth k (f_Y G) 0) in
  let Y q := nth k (m_Y q) 0 / m_rho q in
  0 <= lam -> 0 < m_rho b -> 0 < rho' -> lam * (Rmax (f_rho G) 0 + Rmax (- f_rho F) 0) <= m_rho b ->
  lo <= Y a <= hi -> lo <= Y b <= hi -> lo <= Y c <= hi -> lo <= y' / rho' <= hi.
Proof.
  intros dim Msq a b c d lam k lo hi La Lc Hk F G rho' y' Y Hl Hr Hp Ho Ha Hb Hcc.
  assert (EF : nth k (f_Y F) 0 = lane_upwind (f_rho F) (Y a) (Y b)) by (apply lane_scalar_flux; lia).
  assert (EG : nth k (f_Y G) 0 = lane_upwind (f_rho G) (Y b) (Y c)) by (apply lane_scalar_flux; lia).
  assert (Ey : y' = m_rho b * Y b + lane_upwind (lam * f_rho F) (Y a) (Y b) - lane_upwind (lam * f_rho G) (Y b) (Y c)).
  { unfold y'. rewrite EF, EG, !lane_scale by auto. unfold Y. field. lra. }
  assert (Er : rho' = m_rho b + lam * f_rho F - lam * f_rho G) by (unfold rho'; ring).
  rewrite Ey. rewrite Er in *. apply upwind_bounds; auto.
  assert (M : forall f, Rmax (lam * f) 0 = lam * Rmax f 0) by (intros f; rewrite <- RmaxRmult, Rmult_0_r by auto; reflexivity).
  replace (- (lam * f_rho F)) with (lam * - f_rho F) by ring. rewrite !M. lra.
Qed.
Print Assumptions C63_mass_fractions.

(** The scalar version with Larrouturou steepens profiles carried to the left: with the same flow everywhere, a
    cell whose right neighbour has a smaller mass fraction increases, so that bounds are lost. *)
Theorem C63_scalar_refuted : forall dim Msq rho mom E p a g d lam old ya yb yc,
  (1 <= dim <= 2)%nat -> (d < dim)%nat -> 0 < Msq -> mix_admissible dim Msq (mkM rho mom E [yb] p a g) ->
  nth d mom 0 < 0 -> 0 < lam -> yc < yb ->
  let q y := mkM rho mom E [y] p a g in
  let F := HllemFlux true dim Msq (q ya) (q yb) d old in let G := HllemFlux true dim Msq (q yb) (q yc) d old in
  rho + lam * (f_rho F - f_rho G) = rho /\
  (yb + lam * (nth 0 (f_Y F) 0 - nth 0 (f_Y G) 0)) / rho = yb / rho + lam * Rabs (nth d mom 0) * (yb - yc) / (rho * rho) /\
  (yb + lam * (nth 0 (f_Y F) 0 - nth 0 (f_Y G) 0)) / rho > yb / rho.
Proof.
  intros dim Msq rho mom E p a g d lam old ya yb yc Hdim Hd HM A Hneg Hlam Hy q F G.
  assert (Hr : 0 < rho) by apply A.
  assert (A1 : mix_admissible dim Msq (q ya)) by exact A.
  pose proof (same_flow dim Msq rho mom E [ya] [yb] p a g d old Hdim Hd HM A1) as EF. fold (q ya) (q yb) F in EF.
  pose proof (same_flow dim Msq rho mom E [yb] [yc] p a g d old Hdim Hd HM A) as EG. fold (q yb) (q yc) G in EG.
  assert (FF : nth 0 (f_Y F) 0 = scalar_upwind (f_rho F) (ya / rho) (yb / rho))
    by (unfold F; rewrite (scalar_scalar_flux dim Msq (q ya) (q yb) d old 0); [reflexivity | reflexivity | cbn; lia]).
  assert (FG : nth 0 (f_Y G) 0 = scalar_upwind (f_rho G) (yb / rho) (yc / rho))
    by (unfold G; rewrite (scalar_scalar_flux dim Msq (q yb) (q yc) d old 0); [reflexivity | reflexivity | cbn; lia]).
  rewrite FF, FG, EF, EG. split; [ring|]. rewrite Rabs_left by auto. unfold scalar_upwind.
  destruct (Rlt_dec 0 (nth d mom 0)); [lra|].
  assert (Eq : (yb + lam * (nth d mom 0 * (0 * (ya / rho) - (1 - 0) * (yb / rho)) - nth d mom 0 * (0 * (yb / rho) - (1 - 0) * (yc / rho)))) / rho =
    yb / rho + lam * - nth d mom 0 * (yb - yc) / (rho * rho)) by (field; lra).
  split; auto. rewrite Eq.
  assert (0 < lam * - nth d mom 0 * (yb - yc) / (rho * rho)); [|lra].
  unfold Rdiv. repeat apply Rmult_lt_0_compat; try lra. apply Rinv_0_lt_compat, Rmult_lt_0_compat; auto.
Qed.
Print Assumptions C63_scalar_refuted.

Example C63_scalar_example : forall old,
  let q y := mkM 1 [-1] (5 / 2) [y] 1 1 (3 / 2) in
  (1 + 1 / 10 * (nth 0 (f_Y (HllemFlux true 1 1 (q 1) (q 1) 0 old)) 0 - nth 0 (f_Y (HllemFlux true 1 1 (q 1) (q 0) 0 old)) 0)) / 1 > 1.
Proof.
  intros old q.
  destruct (C63_scalar_refuted 1 1 1 [-1] (5 / 2) 1 1 (3 / 2) 0 (1 / 10) old 1 1 0) as (_ & _ & H); try lia; try (cbn; lra).
  - unfold mix_admissible, kinetic. cbn. repeat split; try lra.
  - cbv zeta in H. fold (q 0) (q 1) in H. lra.
Qed.

(** The same flow, vectorised: mass fractions 1, 1, 0 stay within [0, 1]. *)
Example C63_mass_fractions_example :
  let q y := mkM 1 [-1] (5 / 2) [y] 1 1 (3 / 2) in
  0 <= (1 + 1 / 10 * (nth 0 (f_Y (HllemFlux_lane true 1 1 (q 1) (q 1) 0)) 0 - nth 0 (f_Y (HllemFlux_lane true 1 1 (q 1) (q 0) 0)) 0))
       / (1 + 1 / 10 * (f_rho (HllemFlux_lane true 1 1 (q 1) (q 1) 0) - f_rho (HllemFlux_lane true 1 1 (q 1) (q 0) 0))) <= 1.
Proof.
  intros q.
  assert (E : forall y z, f_rho (HllemFlux_lane true 1 1 (q y) (q z) 0) = -1).
  { intros y z. change (f_rho (HllemFlux_lane true 1 1 (q y) (q z) 0)) with (f_rho (HllemFlux_lane true 1 1 (q y) (q y) 0)).
    rewrite C36_consistent_lane; try lia; try lra; [unfold euler_flux; cbn; field|].
    unfold mix_admissible, kinetic. cbn. repeat split; try lra. }
  apply (C63_mass_fractions 1 1 (q 1) (q 1) (q 0) 0 (1 / 10) 0 0 1); rewrite ?E; cbn; auto; try lra.
  - replace (Rmax (-1) 0) with 0 by (symmetry; apply Rmax_right; lra). replace (Rmax (- -1) 0) with 1 by (rewrite Rmax_left; lra). lra.
Qed.
