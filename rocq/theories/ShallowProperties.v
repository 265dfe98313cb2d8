(** C79-C82 (exact Riemann solver of the shallow water equations). *)
From Coq Require Import List Reals ZArith Lia Lra Psatz.
From Verif Require Import FluxModel NewtonModel NewtonSpec NewtonProofs NewtonProofs2.
From Verif Require Import ShallowModel ShallowSpec ShallowProofs ShallowProofs2 ShallowProofs3.
Import ListNotations.
Local Open Scope R_scope.

(** Every zero of the height function gives an entropy solution of the Riemann problem, and the solver returns its value
    at x = 0. *)
Theorem C79_entropy_solution : forall g d l r hM uM, 0 < g -> 0 < height l -> 0 < height r ->
  0 < hM -> f_height g d l r hM = Fin 0 -> f_side g d l 1 hM = Fin uM ->
  exists w, riemann_solution g d l r w /\ SolveFrom g d l r hM uM = Some (w 0) /\
    height (w uM) = hM /\ along d (w uM) / height (w uM) = uM.
Proof.
  intros g d l r hM uM Hg Hl Hr Hh E1 E2.
  destruct (root_velocities g d l r Hg Hl Hr hM uM Hh E1 E2) as (_ & U1 & U2).
  exists (solution g l r d hM uM). split; [apply solution_riemann; auto|]. split; [apply solve_from; auto|].
  pose proof (order g l d 1 hM uM Hg Hl one_sign Hh U1) as (_ & O & _).
  assert (solution g l r d hM uM uM = middle_of l d hM uM) as ->.
  { unfold solution. destruct (Rle_dec uM uM); [|lra]. apply wave_inside; auto using one_sign. }
  unfold middle_of. split; [apply prim_height|]. apply prim_speed. exact Hh.
Qed.
Print Assumptions C79_entropy_solution.

(** Unless dry ground appears, the height function has exactly one zero, thus such a solution exists; otherwise there is
    no zero. *)
Theorem C79_exists : forall g d l r, 0 < g -> 0 < height l -> 0 < height r -> ~ dry g d l r ->
  exists hM uM w, 0 < hM /\ riemann_solution g d l r w /\ SolveFrom g d l r hM uM = Some (w 0) /\
    height (w uM) = hM /\ along d (w uM) / height (w uM) = uM /\
    (forall h, 0 < h -> (f_height g d l r h = Fin 0 <-> h = hM)).
Proof.
  intros g d l r Hg Hl Hr V. destruct (root_exists g d l r Hg Hl Hr V) as (hM & Hh & E).
  assert (f_height g d l r hM = Fin 0) as E1 by (rewrite f_height_F by auto; f_equal; exact E).
  pose proof (f_side_psi g l d 1 Hg Hl hM Hh) as E2.
  destruct (C79_entropy_solution g d l r hM _ Hg Hl Hr Hh E1 E2) as (w & S & Z & H1 & H2).
  exists hM, (speed_of d l - 1 * psi g l hM), w. repeat (split; [assumption|]).
  intros h Hp. rewrite f_height_F by auto. split.
  - intros Q. injection Q as Q. apply (root_unique g d l r Hg Hl Hr); auto.
  - intros ->. f_equal. exact E.
Qed.
Print Assumptions C79_exists.

Theorem C79_dry : forall g d l r, 0 < g -> 0 < height l -> 0 < height r -> dry g d l r ->
  forall h, 0 < h -> f_height g d l r h <> Fin 0.
Proof.
  intros g d l r Hg Hl Hr V h Hh E. rewrite f_height_F in E by auto. injection E as E.
  unfold dry in V. fold (speed_of d r) (speed_of d l) in V. pose proof (dry_above g d l r Hg Hl Hr h 0 Hh). lra.
Qed.
Print Assumptions C79_dry.

(** Two streams of height 1 which collide with the velocities 15/2 and -15/2 under gravity 10: height 4 between them. *)
Definition stream (u : R) : water := mkWater 1 (u, 0).

Lemma collision_psi u : psi 10 (stream u) 4 = 15 / 2.
Proof.
  unfold psi. cbn [height stream]. destruct (Rlt_dec 4 1); [lra|].
  replace (1 / 2 * 10 * (1 / 4 + 1 / 1)) with (5 / 2 * (5 / 2)) by field. rewrite sqrt_square by lra. field.
Qed.
Lemma stream_height u : 0 < height (stream u).
Proof. cbn. lra. Qed.
Lemma stream_speed u : speed_of false (stream u) = u.
Proof. unfold speed_of. cbn. field. Qed.

Lemma collision_root : f_height 10 false (stream (15 / 2)) (stream (- (15 / 2))) 4 = Fin 0 /\
  f_side 10 false (stream (15 / 2)) 1 4 = Fin 0.
Proof.
  rewrite f_height_F by (try apply stream_height; lra). rewrite (f_side_psi 10 _ false 1) by (try apply stream_height; lra).
  unfold F. rewrite !collision_psi, !stream_speed. split; f_equal; field.
Qed.

Example C79_example : exists w, riemann_solution 10 false (stream (15 / 2)) (stream (- (15 / 2))) w /\
  SolveFrom 10 false (stream (15 / 2)) (stream (- (15 / 2))) 4 0 = Some (w 0) /\ height (w 0) = 4 /\ along false (w 0) = 0.
Proof.
  destruct collision_root as [E1 E2].
  destruct (C79_entropy_solution 10 false _ _ 4 0 ltac:(lra) (stream_height _) (stream_height _) ltac:(lra) E1 E2) as (w & S & Z & H1 & H2).
  exists w. repeat (split; [assumption|]). rewrite H1 in H2. apply Rmult_eq_reg_r with (/ 4); [|lra]. fold (along false (w 0) / 4). lra.
Qed.

Example C79_exists_example : ~ dry 10 false (stream (-1)) (stream 1).
Proof.
  assert (1 < sqrt (10 * 1)) as S by (rewrite <- sqrt_1 at 1; apply sqrt_lt_1; lra).
  unfold dry. cbn [height stream along momentum fst]. lra.
Qed.

Example C79_dry_example : dry 10 false (stream (-8)) (stream 8).
Proof.
  assert (sqrt (10 * 1) < 4) as S by (rewrite <- (sqrt_square 4) by lra; apply sqrt_lt_1; lra).
  unfold dry. cbn [height stream along momentum fst]. lra.
Qed.

(** The signals enclose the middle velocity and the region in which the solution differs from the initial states, and
    they are sharp. *)
Theorem C80_signals : forall g d l r hM uM, 0 < g -> 0 < height l -> 0 < height r ->
  0 < hM -> f_height g d l r hM = Fin 0 -> f_side g d l 1 hM = Fin uM ->
  exists w sl sr, riemann_solution g d l r w /\ SolveFrom g d l r hM uM = Some (w 0) /\
    SignalsFrom g d l r hM uM = Some (sl, sr) /\ sl < uM < sr /\
    (forall xi, xi < sl -> w xi = l) /\ (forall xi, sr < xi -> w xi = r) /\
    (hM <> height l -> forall s, sl < s -> exists xi, sl < xi < s /\ w xi <> l) /\
    (hM <> height r -> forall s, s < sr -> exists xi, s < xi < sr /\ w xi <> r).
Proof.
  intros g d l r hM uM Hg Hl Hr Hh E1 E2.
  destruct (root_velocities g d l r Hg Hl Hr hM uM Hh E1 E2) as (_ & U1 & U2).
  pose proof (order g l d 1 hM uM Hg Hl one_sign Hh U1) as (A1 & A2 & _).
  pose proof (order g r d (-1) hM uM Hg Hr minus_sign Hh U2) as (B1 & B2 & _).
  exists (solution g l r d hM uM), (head g l d 1 hM uM), (head g r d (-1) hM uM).
  split; [apply solution_riemann; auto|]. split; [apply solve_from; auto|]. split; [apply signals_from; auto|].
  split; [lra|]. split; [|split; [|split]].
  - intros x Hx. unfold solution. destruct (Rle_dec x uM); [|lra]. apply wave_outside; lra.
  - intros x Hx. unfold solution. destruct (Rle_dec x uM); [lra|]. apply wave_outside; lra.
  - intros N s Hs. destruct (wave_tight g l d 1 hM uM Hg Hl one_sign Hh U1 N (s - head g l d 1 hM uM) ltac:(lra)) as (x & X1 & X2 & X3).
    exists x. split; [lra|]. unfold solution. destruct (Rle_dec x uM); [exact X3|lra].
  - intros N s Hs. destruct (wave_tight g r d (-1) hM uM Hg Hr minus_sign Hh U2 N (head g r d (-1) hM uM - s) ltac:(lra)) as (x & X1 & X2 & X3).
    exists x. split; [lra|]. unfold solution. destruct (Rle_dec x uM); [lra|exact X3].
Qed.
Print Assumptions C80_signals.

Example C80_example : SignalsFrom 10 false (stream (15 / 2)) (stream (- (15 / 2))) 4 0 = Some (- (5 / 2), 5 / 2) /\
  exists w, riemann_solution 10 false (stream (15 / 2)) (stream (- (15 / 2))) w /\ w (-3) = stream (15 / 2) /\
  exists xi, - (5 / 2) < xi < -2 /\ w xi <> stream (15 / 2).
Proof.
  assert (SignalsFrom 10 false (stream (15 / 2)) (stream (- (15 / 2))) 4 0 = Some (- (5 / 2), 5 / 2)) as E.
  { unfold SignalsFrom. cbn [height stream along momentum fst]. destruct (Rlt_dec 0 1); [|lra]. destruct (Rle_dec 4 1); [lra|]. f_equal. f_equal; field. }
  destruct collision_root as [E1 E2].
  destruct (C80_signals 10 false _ _ 4 0 ltac:(lra) (stream_height _) (stream_height _) ltac:(lra) E1 E2)
    as (w & sl & sr & S & _ & Q & _ & O & _ & T & _).
  rewrite E in Q. injection Q as <- <-. split; [exact E|]. exists w. split; [exact S|]. split; [apply O; lra|].
  apply T; [cbn; lra|lra].
Qed.

(** The computed middle state: its velocity differs from the exact one by the tolerance at most, unless the iteration
    ended with a residual below minus the tolerance (see C38). *)
Theorem C81_middle_state_partial : forall g d l r hs us h u, 0 < g -> 0 < height l -> 0 < height r ->
  0 < hs -> f_height g d l r hs = Fin 0 -> f_side g d l 1 hs = Fin us ->
  ComputeMiddleState g d l r = Middle h u -> 0 < h ->
  (Rabs (u - us) <= / 10 ^ 7 /\ exists v, f_height g d l r h = Fin v /\ Rabs v <= / 10 ^ 7) \/
  (h < hs /\ exists v, f_height g d l r h = Fin v /\ v < - / 10 ^ 7).
Proof.
  intros g d l r hs us h u Hg Hl Hr Hps E1 E2 E Hp.
  destruct (root_velocities g d l r Hg Hl Hr hs us Hps E1 E2) as (E0 & U1 & U2).
  destruct (middle_result_cases g d l r Hg Hl Hr h u E Hp) as (Eu & C).
  rewrite f_height_F by auto. destruct C as [C|C].
  - left. split; [|eauto]. rewrite Eu, U1, Rmult_1_l. apply Rle_trans with (Rabs (F g d l r h)); [|exact C].
    apply (velocity_error g d l r Hg Hl Hr); auto.
  - right. split; [|eauto]. destruct (Rlt_dec h hs); [assumption|]. exfalso. pose proof tol_positive.
    destruct (Req_dec h hs) as [Q|N]; [rewrite Q, E0 in C; lra|].
    pose proof (F_increasing g d l r Hg Hl Hr hs h Hps ltac:(lra)). lra.
Qed.
Print Assumptions C81_middle_state_partial.

(** If the first Newton step x1, which starts from the mean height, is positive, the iteration converges. *)
Theorem C81_converges : forall g d l r hs us v0 s0 v1 s1 ss,
  let x0 := 1 / 2 * (height l + height r) in
  let x1 := x0 - v0 / s0 in
  0 < g -> 0 < height l -> 0 < height r ->
  0 < hs -> f_height g d l r hs = Fin 0 -> f_side g d l 1 hs = Fin us -> df_height g l r hs = Fin ss ->
  f_height g d l r x0 = Fin v0 -> df_height g l r x0 = Fin s0 -> 0 < x1 ->
  f_height g d l r x1 = Fin v1 -> df_height g l r x1 = Fin s1 ->
  - v1 * s1 <= / 10 ^ 7 * ss * 4 ^ Z.to_nat 4999 ->
  exists h u, ComputeMiddleState g d l r = Middle h u /\ 0 < h /\ Rabs (u - us) <= / 10 ^ 7.
Proof.
  intros g d l r hs us v0 s0 v1 s1 ss x0 x1 Hg Hl Hr Hps E1 E2 E3 F0 D0 Hx1 F1 D1 B.
  pose proof (mean_positive l r Hl Hr) as P0. fold x0 in P0.
  destruct (root_velocities g d l r Hg Hl Hr hs us Hps E1 E2) as (E0 & U1 & U2).
  rewrite df_height_DF in E3, D0, D1 by assumption. rewrite f_height_F in F0, F1 by assumption.
  injection E3 as <-. injection F0 as <-. injection D0 as <-. injection F1 as <-. injection D1 as <-.
  destruct (converges g d l r Hg Hl Hr hs x1 Hps E0 eq_refl Hx1 B) as (h & u & E & Hp & R & Eu).
  exists h, u. split; [exact E|]. split; [exact Hp|]. rewrite Eu, U1, Rmult_1_l.
  apply Rle_trans with (Rabs (F g d l r h)); [|exact R]. apply (velocity_error g d l r Hg Hl Hr); auto.
Qed.
Print Assumptions C81_converges.

(** In particular it succeeds if the middle height is not below the mean height and the residual at the mean height is
    not astronomically large. *)
Theorem C81_converges_below : forall g d l r hs us v0 s0 ss,
  let x0 := 1 / 2 * (height l + height r) in
  0 < g -> 0 < height l -> 0 < height r ->
  x0 <= hs -> f_height g d l r hs = Fin 0 -> f_side g d l 1 hs = Fin us -> df_height g l r hs = Fin ss ->
  f_height g d l r x0 = Fin v0 -> df_height g l r x0 = Fin s0 ->
  - v0 * s0 <= / 10 ^ 7 * ss * 4 ^ Z.to_nat 5000 ->
  exists h u, ComputeMiddleState g d l r = Middle h u /\ x0 <= h <= hs /\ Rabs (u - us) <= / 10 ^ 7.
Proof.
  intros g d l r hs us v0 s0 ss x0 Hg Hl Hr Hps E1 E2 E3 F0 D0 B.
  pose proof (mean_positive l r Hl Hr) as P0. fold x0 in P0.
  destruct (root_velocities g d l r Hg Hl Hr hs us ltac:(lra) E1 E2) as (E0 & U1 & U2).
  rewrite df_height_DF in E3, D0 by (auto; lra). rewrite f_height_F in F0 by assumption.
  injection E3 as <-. injection F0 as <-. injection D0 as <-.
  destruct (newton_below (f_height g d l r) (df_height g l r) (F g d l r) (DF g l r) hs (/ 10 ^ 7)
      (f_height_F g d l r Hg Hl Hr) (df_height_DF g l r Hg) (DF_positive g l r Hg Hl Hr)
      (F_tangent g d l r Hg Hl Hr) ltac:(lra) E0 tol_positive x0 5000 ltac:(lra) ltac:(lia) B) as (h & EN & Hp & Ep).
  exists h, (speed_of d l - psi g l h). split; [|split; [exact Hp|]].
  - unfold ComputeMiddleState. fold x0. rewrite EN. rewrite (f_side_psi g l d 1 Hg Hl) by lra. f_equal. ring.
  - rewrite U1, Rmult_1_l. apply Rle_trans with (Rabs (F g d l r h)); [|exact Ep]. apply (velocity_error g d l r Hg Hl Hr); auto; lra.
Qed.
Print Assumptions C81_converges_below.

(** If dry ground appears the exception is thrown, no state is returned. *)
Theorem C81_dry_exception : forall g d l r, 0 < g -> 0 < height l -> 0 < height r ->
  2 * (sqrt (g * height l) + sqrt (g * height r)) + / 10 ^ 7 < along d r / height r - along d l / height l ->
  ComputeMiddleState g d l r = Exception /\ SolveRiemannProblem g d l r = None /\ ComputeSignals g d l r = None /\ GodunovFlux g d l r = None.
Proof.
  intros g d l r Hg Hl Hr H. fold (speed_of d r) (speed_of d l) in H.
  assert (ComputeMiddleState g d l r = Exception) as E by (apply dry_exception; auto; lra).
  split; [exact E|]. unfold GodunovFlux, SolveRiemannProblem, ComputeSignals. rewrite E. auto.
Qed.
Print Assumptions C81_dry_exception.

Example C81_example : exists h u, ComputeMiddleState 10 false (stream (15 / 2)) (stream (- (15 / 2))) = Middle h u /\
  1 <= h <= 4 /\ Rabs u <= / 10 ^ 7.
Proof.
  destruct collision_root as [E1 E2]. set (l := stream (15 / 2)) in *. set (r := stream (- (15 / 2))) in *.
  assert (1 / 2 * (height l + height r) = 1) as X0 by (cbn; field).
  pose proof (C81_converges_below 10 false l r 4 0 (-15) (DF 10 l r 1) (DF 10 l r 4)) as C.
  cbv zeta in C. rewrite X0 in C.
  destruct C as (h & u & E & B & V); auto; try (apply stream_height); try lra.
  - apply df_height_DF; lra.
  - rewrite f_height_F by (try apply stream_height; lra). f_equal. unfold F.
    pose proof (psi_h0 10 l) as P1. pose proof (psi_h0 10 r) as P2. cbn [height l r stream] in P1, P2. rewrite P1, P2.
    unfold l, r. rewrite !stream_speed. field.
  - apply df_height_DF; lra.
  - assert (sqrt (1 / 2 * 10 * (1 / 1 + 1 / 1)) < 4) as S.
    { rewrite <- (sqrt_square 4) by lra. apply sqrt_lt_1; lra. }
    assert (DF 10 l r 1 <= 8) as D1.
    { unfold DF, dpsi. cbn [height l r stream]. destruct (Rlt_dec 1 1); [lra|]. unfold dpsi_s, root. cbn [height l r stream].
      set (z := sqrt _) in *. replace (1 / 4 * 10 * (1 - 1) / (1 * 1 * z)) with 0 by (unfold Rdiv; ring). lra. }
    assert (1 <= DF 10 l r 4) as D2.
    { unfold DF, dpsi. cbn [height l r stream]. destruct (Rlt_dec 4 1); [lra|]. unfold dpsi_s, root. cbn [height l r stream].
      replace (1 / 2 * 10 * (1 / 4 + 1 / 1)) with (5 / 2 * (5 / 2)) by field. rewrite sqrt_square by lra. lra. }
    assert (10 ^ 10 <= 4 ^ Z.to_nat 5000) as P.
    { apply Rle_trans with (4 ^ 17); [lra|]. apply Rle_pow; [lra|lia]. }
    apply Rle_trans with 120; [lra|]. apply Rle_trans with (/ 10 ^ 7 * 1 * 10 ^ 10); [lra|].
    apply Rmult_le_compat; [lra| lra | |exact P]. apply Rmult_le_compat_l; lra.
  - exists h, u. split; [exact E|]. split; [exact B|]. rewrite Rminus_0_r in V. exact V.
Qed.

Example C81_dry_example : ComputeMiddleState 10 false (stream (-8)) (stream 8) = Exception.
Proof.
  apply C81_dry_exception; try apply stream_height; [lra|].
  assert (sqrt (10 * 1) < 38 / 10) as S by (rewrite <- (sqrt_square (38 / 10)) by lra; apply sqrt_lt_1; lra).
  cbn [height stream along momentum fst]. lra.
Qed.

(** The full claim fails: if a Newton step hits zero exactly, the iteration stays there until it gives up silently.  Two
    streams of equal height which move away from each other with Froude number 1; the middle height 0 fails the assertion
    of the solver, whereas the exact solution has a positive height. *)
Definition receding (g h s : R) : water := mkWater h (s * (h * sqrt (g * h)), 0).

Theorem C81_stuck_refuted : forall g h, 0 < g -> 0 < h -> / 10 ^ 7 < 2 * sqrt (g * h) ->
  let l := receding g h (-1) in let r := receding g h 1 in
  ~ dry g false l r /\
  ComputeMiddleState g false l r = Middle 0 (sqrt (g * h)) /\ SolveRiemannProblem g false l r = None.
Proof.
  intros g h Hg Hh Ht l r. set (a := sqrt (g * h)) in *.
  assert (0 < g * h) as P by (apply Rmult_lt_0_compat; assumption).
  assert (0 < a) as A by (apply sqrt_lt_R0; exact P). assert (a * a = g * h) as AA by (apply sqrt_sqrt; lra).
  assert (speed_of false l = - a) as SL by (unfold speed_of, l, receding; cbn; fold a; field; lra).
  assert (speed_of false r = a) as SR by (unfold speed_of, r, receding; cbn; fold a; field; lra).
  assert (ComputeMiddleState g false l r = Middle 0 a) as E.
  { unfold ComputeMiddleState. replace (1 / 2 * (height l + height r)) with h by (cbn; field).
    assert (NewtonIteration (f_height g false l r) (df_height g l r) h (/ 10 ^ 7) 5000 = Returned 0) as EN.
    { unfold NewtonIteration. replace (Z.to_nat 5000) with (S (Z.to_nat 4999)) by lia. cbn [newton_loop].
      assert (f_height g false l r h = Fin (2 * a)) as F1.
      { rewrite f_height_F by auto. f_equal. unfold F. pose proof (psi_h0 g l) as P1. pose proof (psi_h0 g r) as P2.
        cbn [height l r receding] in P1, P2. rewrite P1, P2, SL, SR. ring. }
      assert (df_height g l r h = Fin (2 * (g / a))) as D1.
      { rewrite df_height_DF by auto. f_equal. unfold DF, dpsi. cbn [height l r receding].
        destruct (Rlt_dec h h); [lra|]. pose proof (dpsi_s_h0 g l Hg Hh) as P1. pose proof (dpsi_s_h0 g r Hg Hh) as P2.
        cbn [height l r receding] in P1, P2. rewrite P1, P2. unfold dpsi_r. fold a. ring. }
      assert (0 < g / a) as GA by (apply Rdiv_lt_0_compat; assumption).
      rewrite F1. cbn [abs_gt]. rewrite Rabs_right by lra. destruct (Rlt_dec (/ 10 ^ 7) (2 * a)) as [_|N]; [|contradiction].
      rewrite D1. cbn [next_value]. destruct (Req_EM_T (2 * (g / a)) 0); [lra|].
      replace (h - 2 * a / (2 * (g / a))) with 0.
      2:{ replace (2 * a / (2 * (g / a))) with (a * a / g) by (field; lra). rewrite AA. field. lra. }
      cbn [next_x]. destruct (Rlt_dec 0 0); [lra|].
      assert (speed_of false r - speed_of false l - 2 * (sqrt (g * height l) + sqrt (g * height r)) = - (2 * a)) as Gap.
      { rewrite SL, SR. cbn [height l r receding]. fold a. ring. }
      rewrite stuck_loop; auto.
      - rewrite f_height_zero by auto. rewrite Gap. cbn [gt Nat.eqb andb]. pose proof tol_positive.
        change (0 <=? 5000)%Z with true. cbn [andb]. destruct (Rlt_dec (/ 10 ^ 7) _); [lra|reflexivity].
      - rewrite Gap, Rabs_Ropp, Rabs_right by lra. exact Ht. }
    rewrite EN. rewrite (f_side_zero g l Hh). rewrite SL. cbn [height l receding]. fold a. f_equal. ring. }
  split; [|split; [exact E|]].
  - unfold dry. fold (speed_of false r) (speed_of false l). rewrite SL, SR. cbn [height l r receding]. fold a. lra.
  - unfold SolveRiemannProblem. rewrite E. unfold SolveFrom. cbn [height l r receding].
    destruct (Rlt_dec 0 h); [|reflexivity]. destruct (Rlt_dec 0 0); [lra|reflexivity].
Qed.
Print Assumptions C81_stuck_refuted.

Example C81_stuck_example : ~ dry 10 false (receding 10 (1 / 10) (-1)) (receding 10 (1 / 10) 1) /\
  ComputeMiddleState 10 false (receding 10 (1 / 10) (-1)) (receding 10 (1 / 10) 1) = Middle 0 1.
Proof.
  assert (sqrt (10 * (1 / 10)) = 1) as S by (replace (10 * (1 / 10)) with 1 by field; apply sqrt_1).
  destruct (C81_stuck_refuted 10 (1 / 10) ltac:(lra) ltac:(lra) ltac:(rewrite S; lra)) as (A & B & _).
  rewrite S in B. auto.
Qed.

(** For equal states the solver returns the state.  Godunov's flux of water is the physical one. *)
Theorem C82_consistent : forall g d q, 0 < g -> 0 < height q ->
  SolveRiemannProblem g d q q = Some q /\
  ComputeSignals g d q q = Some (along d q / height q - sqrt (g * height q), along d q / height q + sqrt (g * height q)) /\
  exists f, GodunovFlux g d q q = Some f /\ f Height = transport g d Water q.
Proof.
  intros g d q Hg Hq.
  assert (SolveRiemannProblem g d q q = Some q) as E.
  { unfold SolveRiemannProblem. rewrite equal_middle by auto. rewrite (solve_from g q q d); auto.
    - f_equal. apply equal_solution; auto.
    - rewrite psi_h0. ring.
    - rewrite psi_h0. ring. }
  split; [exact E|]. split.
  - unfold ComputeSignals. rewrite equal_middle by auto. unfold SignalsFrom. destruct (Rlt_dec 0 (height q)); [|contradiction].
    destruct (Rle_dec (height q) (height q)); [reflexivity|lra].
  - eexists. split; [unfold GodunovFlux; rewrite E; reflexivity|]. destruct d; reflexivity.
Qed.
Print Assumptions C82_consistent.

(** The flux of momentum is the physical one for no state of water which moves, unless its height is 1: the function
    takes the momentum for the velocity. *)
Theorem C82_momentum_flux_refuted : forall g d q, 0 < g -> 0 < height q -> along d q <> 0 -> height q <> 1 ->
  exists f, GodunovFlux g d q q = Some f /\ f (momentum_of d) <> transport g d Along q.
Proof.
  intros g d q Hg Hq Hm H1. destruct (C82_consistent g d q Hg Hq) as (E & _).
  eexists. split; [unfold GodunovFlux; rewrite E; reflexivity|].
  assert (ShallowWaterFlux g d (components q) (momentum_of d) = along d q * along d q + 1 / 2 * g * (height q * height q)) as ->.
  { destruct q as [h [m n]]. destruct d; cbn; ring. }
  cbn [transport]. intros Q.
  assert (along d q * along d q * (1 - / height q) = 0) as Z by (unfold Rdiv in Q; lra).
  apply Rmult_integral in Z. destruct Z as [Z|Z].
  - apply Rmult_integral in Z. destruct Z; contradiction.
  - apply H1. rewrite <- (Rinv_inv (height q)). replace (/ height q) with 1 by lra. apply Rinv_1.
Qed.
Print Assumptions C82_momentum_flux_refuted.

Example C82_example : exists f, GodunovFlux 10 false (mkWater 2 (6, 0)) (mkWater 2 (6, 0)) = Some f /\
  f Height = 6 /\ f MomentumX = 56 /\ transport 10 false Along (mkWater 2 (6, 0)) = 38.
Proof.
  destruct (C82_consistent 10 false (mkWater 2 (6, 0)) ltac:(lra) ltac:(cbn; lra)) as (E & _).
  eexists. split; [unfold GodunovFlux; rewrite E; reflexivity|]. cbn. split; [reflexivity|]. split; field.
Qed.

(** With an exact middle state Godunov's flux of water is the flux of the entropy solution at the interface. *)
Theorem C82_godunov_water : forall g d l r hM uM, 0 < g -> 0 < height l -> 0 < height r ->
  ComputeMiddleState g d l r = Middle hM uM -> 0 < hM -> f_height g d l r hM = Fin 0 ->
  exists w f, riemann_solution g d l r w /\ SolveRiemannProblem g d l r = Some (w 0) /\
    GodunovFlux g d l r = Some f /\ f Height = transport g d Water (w 0).
Proof.
  intros g d l r hM uM Hg Hl Hr E Hh E1.
  assert (f_side g d l 1 hM = Fin uM) as E2.
  { unfold ComputeMiddleState in E. destruct (NewtonIteration _ _ _ _ _) as [x|]; [|discriminate].
    destruct (f_side g d l 1 x) eqn:V; try discriminate. injection E as -> ->. exact V. }
  destruct (C79_entropy_solution g d l r hM uM Hg Hl Hr Hh E1 E2) as (w & S & Z & _).
  assert (SolveRiemannProblem g d l r = Some (w 0)) as EE by (unfold SolveRiemannProblem; rewrite E; exact Z).
  exists w. eexists. split; [exact S|]. split; [exact EE|]. split; [unfold GodunovFlux; rewrite EE; reflexivity|].
  destruct d; reflexivity.
Qed.
Print Assumptions C82_godunov_water.

Example C82_godunov_example : ComputeMiddleState 10 true (mkWater 2 (1, 6)) (mkWater 2 (5, 6)) = Middle 2 3 /\
  f_height 10 true (mkWater 2 (1, 6)) (mkWater 2 (5, 6)) 2 = Fin 0.
Proof.
  assert (f_height 10 true (mkWater 2 (1, 6)) (mkWater 2 (5, 6)) 2 = Fin 0) as E.
  { rewrite f_height_F by (cbn; lra). f_equal. unfold F. pose proof (psi_h0 10 (mkWater 2 (1, 6))) as P1.
    pose proof (psi_h0 10 (mkWater 2 (5, 6))) as P2. cbn [height] in P1, P2. rewrite P1, P2. unfold speed_of. cbn. field. }
  split; [|exact E]. unfold ComputeMiddleState. cbn [height]. replace (1 / 2 * (2 + 2)) with 2 by field.
  unfold NewtonIteration. rewrite E. replace (Z.to_nat 5000) with (S (Z.to_nat 4999)) by lia. cbn [newton_loop abs_gt].
  rewrite Rabs_R0. pose proof tol_positive. destruct (Rlt_dec (/ 10 ^ 7) 0); [lra|]. cbn [gt Nat.eqb]. rewrite Bool.andb_false_r. cbn [andb].
  rewrite (f_side_psi 10 (mkWater 2 (1, 6)) true 1) by (cbn; lra). pose proof (psi_h0 10 (mkWater 2 (1, 6))) as P1. cbn [height] in P1.
  rewrite P1. f_equal. unfold speed_of. cbn. field.
Qed.
