(** C98: the state and the flux at the embedded boundary of a cut cell. *)
From Coq Require Import List Reals Lra Lia ZArith Bool Psatz.
From Verif Require Import GasModel GasSpec GasProofs NewtonModel RiemannModel RiemannSpec RiemannProofs2 RiemannProofs3 RiemannProofs4 RiemannProofs5 RiemannProperties EmbeddedModel EmbeddedSpec EmbeddedProofs EmbeddedProofs2.
Import ListNotations.
Local Open Scope R_scope.

Lemma unit_opp b : unit b -> unit (map Ropp b).
Proof. unfold unit. intros H. rewrite <- H, map_map. f_equal. apply map_ext. intros. ring. Qed.

(** The reference state of a cut cell is the state of the gas at the wall.  [b] is the stored normal vector, which points
    out of the gas. *)
Theorem C98_wall_state : forall g old reference q b,
  perfect g -> gamma g <= 2 -> admissible g q ->
  length b = 2%nat \/ length b = 3%nat -> length (momentum q) = length b -> unit b ->
  accuracy < (gamma g - 1) * speed_of_sound q -> moderate g q (map Ropp b) ->
  exists w, ReferenceState g old reference true q b = Some w /\ wall_state g q (map Ropp b) w.
Proof.
  intros g old reference q b Hg G2 Hq Hb Hl Hu T M. unfold ReferenceState.
  destruct (Rlt_dec 0 (density q)) as [_|N]; [|exfalso; apply N; apply Hq].
  apply wall_solution; auto; rewrite ?map_length; auto. apply unit_opp, Hu.
Qed.
Print Assumptions C98_wall_state.

(** The wall force.  With a reference state of a wall with the normal n, the boundary fluxes of the split directions
    (computed from the states st 0, st 1, ... of the cell before each split step) exist, and through a wall of area a their
    sum transports neither mass nor energy, and the momentum a n_k p_k, where p_k is the pressure at the wall of the
    k-th state. *)
Theorem C98_wall_force : forall g old reference mirror n (st : nat -> Complete),
  perfect g -> gamma g <= 2 ->
  length n = 2%nat \/ length n = 3%nat -> unit n ->
  0 < density reference -> length (momentum reference) = length n -> along reference n = 0 ->
  (forall d, (d < length n)%nat -> admissible g (st d) /\ length (momentum (st d)) = length n /\
     accuracy < (gamma g - 1) * speed_of_sound (st d) /\ moderate g (st d) n) ->
  exists (f : nat -> Cons) (w : nat -> Complete),
    (forall d, (d < length n)%nat ->
       ComputeBoundaryFlux g old (st d) reference mirror n false d = Some (f d) /\ wall_state g (st d) n (w d)) /\
    (forall a, sum (map (fun d => a * nth d n 0 * component Mass (f d)) (seq 0 (length n))) = 0 /\
               sum (map (fun d => a * nth d n 0 * component Energy (f d)) (seq 0 (length n))) = 0 /\
               forall k, (k < length n)%nat ->
                 sum (map (fun d => a * nth d n 0 * component (Momentum k) (f d)) (seq 0 (length n))) =
                 a * nth k n 0 * pressure (w k)).
Proof.
  intros g old reference mirror n st Hg G2 Hn Hu Dr Lr Zr Hst.
  set (w := fun d => match WallRiemannProblem g old (st d) n with Some x => x | None => reference end).
  set (f := fun d => match ComputeBoundaryFlux g old (st d) reference mirror n false d with Some x => x | None => Flux reference d end).
  assert (forall d, (d < length n)%nat -> WallRiemannProblem g old (st d) n = Some (w d) /\ wall_state g (st d) n (w d)) as W.
  { intros d Hd. destruct (Hst d Hd) as (A & L & T & M).
    destruct (wall_solution g (st d) n Hg A Hn L Hu old G2 T M) as (x & E & X). unfold w. rewrite E. auto. }
  assert (forall d, (d < length n)%nat -> ComputeBoundaryFlux g old (st d) reference mirror n false d = Some (f d) /\
    f d = mkCons (c_density (Flux reference d)) (add_at d (pressure (w d) - pressure reference) (c_momentum (Flux reference d))) (c_energy (Flux reference d))) as B.
  { intros d Hd. destruct (W d Hd) as [E _]. unfold f, ComputeBoundaryFlux. cbv zeta. rewrite E. auto. }
  exists f, w. split.
  - intros d Hd. split; [apply B; exact Hd|apply W; exact Hd].
  - intros a. assert (inner (momentum reference) n = 0) as Z.
    { unfold along in Zr. replace (inner (momentum reference) n) with (inner (momentum reference) n / density reference * density reference) by (field; lra).
      rewrite Zr. ring. }
    split; [|split].
    + apply (flux_sum a reference n Mass (fun d => pressure (w d)) f); auto; [discriminate|apply B].
    + apply (flux_sum a reference n Energy (fun d => pressure (w d)) f); auto; [discriminate|apply B].
    + intros k Hk. apply (flux_sum a reference n (Momentum k) (fun d => pressure (w d)) f); auto; [|apply B].
      intros j Ej. injection Ej as <-. exact Hk.
Qed.
Print Assumptions C98_wall_force.

(** Whatever states and masks are used: if the fluxes exist, no mass and no energy passes the wall. *)
Theorem C98_no_leak : forall g reference n old (st mirror : nat -> Complete) (mask : nat -> bool) (f : nat -> Cons) a,
  0 < density reference -> length (momentum reference) = length n -> along reference n = 0 ->
  (forall d, (d < length n)%nat -> ComputeBoundaryFlux g old (st d) reference (mirror d) n (mask d) d = Some (f d)) ->
  sum (map (fun d => a * nth d n 0 * component Mass (f d)) (seq 0 (length n))) = 0 /\
  sum (map (fun d => a * nth d n 0 * component Energy (f d)) (seq 0 (length n))) = 0.
Proof.
  intros g reference n old st mirror mask f a Dr Lr Zr Hf.
  assert (inner (momentum reference) n = 0) as Z.
  { unfold along in Zr. replace (inner (momentum reference) n) with (inner (momentum reference) n / density reference * density reference) by (field; lra).
    rewrite Zr. ring. }
  set (pw := fun d => pressure (match (if mask d then MaskedRiemannProblem g old (mirror d) (st d) n else WallRiemannProblem g old (st d) n) with Some x => x | None => reference end)).
  assert (forall d, (d < length n)%nat ->
    f d = mkCons (c_density (Flux reference d)) (add_at d (pw d - pressure reference) (c_momentum (Flux reference d))) (c_energy (Flux reference d))) as B.
  { intros d Hd. specialize (Hf d Hd). unfold ComputeBoundaryFlux in Hf. cbv zeta in Hf. unfold pw.
    destruct (if mask d then _ else _); [|discriminate]. injection Hf as <-. reflexivity. }
  split.
  - apply (flux_sum a reference n Mass pw f); auto; discriminate.
  - apply (flux_sum a reference n Energy pw f); auto; discriminate.
Qed.
Print Assumptions C98_no_leak.

(** A flow along the wall is not disturbed: the reference state is the state itself and the boundary flux is the physical
    flux.  No restriction on the size of the numbers. *)
Theorem C98_tangential_flow : forall g old reference mirror q b,
  perfect g -> admissible g q ->
  length b = 2%nat \/ length b = 3%nat -> length (momentum q) = length b -> unit b -> along q (map Ropp b) = 0 ->
  ReferenceState g old reference true q b = Some q /\
  forall d, (d < length b)%nat -> exists f, ComputeBoundaryFlux g old q q mirror (map Ropp b) false d = Some f /\
    forall c, (forall k, c = Momentum k -> (k < length b)%nat) -> component c f = transport c q d.
Proof.
  intros g old reference mirror q b Hg Hq Hb Hl Hu Z.
  assert (WallRiemannProblem g old q (map Ropp b) = Some q) as E.
  { apply wall_tangential_flow; auto; rewrite ?map_length; auto. apply unit_opp, Hu. }
  split.
  - unfold ReferenceState. destruct (Rlt_dec 0 (density q)) as [_|N]; [exact E|exfalso; apply N; apply Hq].
  - intros d Hd. unfold ComputeBoundaryFlux. cbv zeta. rewrite E.
    exists (mkCons (c_density (Flux q d)) (add_at d (pressure q - pressure q) (c_momentum (Flux q d))) (c_energy (Flux q d))).
    split; [reflexivity|]. intros c Hc.
    rewrite <- flux_component; [|apply Hq|intros k Ek; rewrite Hl; auto].
    destruct c as [|k|]; cbn [component c_density c_momentum c_energy]; try reflexivity.
    specialize (Hc k eq_refl). rewrite nth_add_at; [destruct (Nat.eqb k d); ring|].
    unfold Flux. cbn [c_momentum].
    assert (forall d x (v : list R), length (add_at d x v) = length v) as AL.
    { clear. intros d x v. revert d. induction v as [|y v IH]; intros [|d]; cbn; auto. }
    rewrite AL, map_length. lia.
Qed.
Print Assumptions C98_tangential_flow.

(** ** Examples *)

(** Air at the wall y = 3/4 x + const moves with velocity 13/12 towards it and with velocity 5 along it. *)
Definition slanted : list R := [3 / 5; - (4 / 5)].
Definition towards : Complete :=
  mkComplete 1 [13 / 12 * (3 / 5) + 5 * (4 / 5); - (13 / 12 * (4 / 5)) + 5 * (3 / 5)] (1 / 2 * (13 / 12 * (13 / 12) + 25) + 5 / 2) 1 (sqrt (7 / 5)).

Lemma towards_admissible : admissible air towards.
Proof.
  split; [cbn; lra|]. split; [cbn; lra|]. split; [|split].
  - cbn. unfold kinetic. cbn. lra.
  - cbn. apply sqrt_pos.
  - cbn. rewrite sqrt_sqrt by lra. lra.
Qed.

Lemma sound_air : 1 < sqrt (7 / 5) < 6 / 5.
Proof.
  split.
  - rewrite <- sqrt_1 at 1. apply sqrt_lt_1; lra.
  - rewrite <- (sqrt_square (6 / 5)) by lra. apply sqrt_lt_1; lra.
Qed.

Lemma huge : 10 ^ 10 <= 4 ^ Z.to_nat 4999.
Proof. apply Rle_trans with (4 ^ 17); [lra|]. apply Rle_pow; [lra|lia]. Qed.

Lemma towards_along : along towards (map Ropp slanted) = - (13 / 12).
Proof. unfold along, inner. cbn. lra. Qed.

Lemma towards_moderate : moderate air towards (map Ropp slanted).
Proof.
  unfold moderate. cbv zeta. rewrite towards_along. pose proof sound_air as S. pose proof huge as Hh.
  assert (accuracy * 10 ^ 10 <= accuracy * 4 ^ Z.to_nat 4999) as HA by (apply Rmult_le_compat_l; [unfold accuracy; lra|exact Hh]).
  assert (accuracy * 10 ^ 10 = 1000) as E3 by (unfold accuracy; lra). rewrite E3 in HA. revert HA. generalize (4 ^ Z.to_nat 4999). intros N HA. clear Hh.
  cbn [gamma air speed_of_sound towards]. set (c := sqrt (7 / 5)) in *. clearbody c.
  assert (/ c < 1) as C1 by (rewrite <- Rinv_1; apply Rinv_lt_contravar; lra).
  assert (0 < / c) as C0 by (apply Rinv_0_lt_compat; lra). unfold Rdiv.
  split; [lra|]. split; [nra|].
  assert (0 < accuracy * N) by lra.
  replace (accuracy * (1 - 7 * / 5 * - (13 * / 12) * / c) * N) with (accuracy * N + 91 * / 60 * / c * (accuracy * N)) by (field; lra).
  assert (0 <= 91 * / 60 * / c * (accuracy * N)) by (apply Rmult_le_pos; [|lra]; apply Rmult_le_pos; lra).
  lra.
Qed.

Example C98_example : exists w, ReferenceState air towards towards true towards slanted = Some w /\
  wall_state air towards (map Ropp slanted) w /\ pressure towards < pressure w.
Proof.
  destruct (C98_wall_state air towards towards towards slanted) as (w & E & W).
  - exact air_perfect.
  - cbn. lra.
  - exact towards_admissible.
  - left; reflexivity.
  - reflexivity.
  - unfold unit. cbn. lra.
  - pose proof sound_air. cbn [gamma air speed_of_sound towards]. unfold accuracy. lra.
  - exact towards_moderate.
  - exists w. split; [exact E|]. split; [exact W|].
    destruct W as (A & _ & _ & _ & _ & P). rewrite towards_along in P.
    rewrite (wave_velocity_phi air towards (pressure w) air_perfect towards_admissible) in P by apply A.
    destruct (Rlt_dec (pressure towards) (pressure w)) as [|N]; [assumption|]. exfalso.
    assert (phi air towards (pressure w) <= 0) as Q.
    { pose proof (phi_p0 air towards air_perfect towards_admissible) as P0. destruct A as (_ & A & _).
      destruct (Req_dec (pressure w) (pressure towards)) as [->|Ne]; [lra|].
      pose proof (phi_increasing air towards air_perfect towards_admissible (pressure w) (pressure towards) A ltac:(lra)). lra. }
    pose proof (Rle_abs (- (- (13 / 12) + phi air towards (pressure w)))). rewrite Rabs_Ropp in *. unfold accuracy in P. lra.
Qed.

Example C98_force_example : exists (f : nat -> Cons) (w : Complete), wall_state air towards (map Ropp slanted) w /\
  forall a, sum (map (fun d => a * nth d (map Ropp slanted) 0 * component Mass (f d)) (seq 0 2)) = 0 /\
  sum (map (fun d => a * nth d (map Ropp slanted) 0 * component (Momentum 1) (f d)) (seq 0 2)) = a * (4 / 5) * pressure w.
Proof.
  destruct C98_example as (r & _ & Hr & _).
  destruct (C98_wall_force air towards r towards (map Ropp slanted) (fun _ => towards)) as (f & w & H1 & H2).
  - exact air_perfect.
  - cbn. lra.
  - left; reflexivity.
  - unfold unit. cbn. lra.
  - apply Hr.
  - apply Hr.
  - apply Hr.
  - intros d _. split; [exact towards_admissible|]. split; [reflexivity|]. split; [|exact towards_moderate].
    pose proof sound_air. cbn [gamma air speed_of_sound towards]. unfold accuracy. lra.
  - exists f, (w 1%nat). split; [apply (H1 1%nat); cbn; lia|]. intros a. destruct (H2 a) as (M & _ & K). split; [exact M|].
    cbn [length map slanted] in K |- *. rewrite (K 1%nat) by lia. cbn [nth]. lra.
Qed.

(** ** The full claim fails: a gas which leaves the wall with exactly the Mach number 1 / gamma has no reference state; the
    pressure iteration ends at zero. *)
Definition leaving (g : gas) : Complete := mkComplete (gamma g) [1; 0] (1 / (2 * gamma g) + 1 / (gamma g - 1)) 1 1.

Theorem C98_leaving_refuted : forall g old reference, perfect g -> gamma g <= 1000 ->
  admissible g (leaving g) /\ gamma g * along (leaving g) [1; 0] = speed_of_sound (leaving g) /\
  ReferenceState g old reference true (leaving g) [-1; 0] = None.
Proof.
  intros g old reference Hg Hle. pose proof Hg as [G _]. split; [|split].
  - split; [cbn; lra|]. split; [cbn; lra|]. split; [|split; cbn; lra].
    cbn. unfold kinetic. cbn. field. lra.
  - unfold along, inner. cbn. field. lra.
  - unfold ReferenceState. destruct (Rlt_dec 0 (density (leaving g))) as [_|N]; [|exfalso; apply N; cbn; lra].
    assert (GetBoundaryNormal [-1; 0] = [1; 0]) as ->.
    { unfold GetBoundaryNormal. cbn [map]. apply list2_eq; lra. }
    unfold WallRiemannProblem. cbv zeta.
    assert (Rotate (leaving g) (rotation_to_x [1; 0]) = leaving g) as ->.
    { unfold Rotate. destruct (to_x_2 1 0 ltac:(lra)) as [-> _]. cbn [momentum leaving mat_vec map dot density energy pressure speed_of_sound].
      unfold leaving. f_equal. apply list2_eq; ring. }
    assert (Reflect (leaving g) (unit_x (length [1; 0])) = mkComplete (gamma g) [Ropp 1; 0] (1 / (2 * gamma g) + 1 / (gamma g - 1)) 1 1) as ->.
    { unfold Reflect. change (momentum (leaving g)) with [1; 0]. change (length [1; 0]) with (S (length [0])).
      change [1; 0] with (1 :: [0]). rewrite mirror_vector. reflexivity. }
    destruct (C77_stuck_refuted g old Hg Hle) as (_ & _ & _ & E & _).
    unfold SolveRiemannProblem. cbn [density leaving].
    destruct (Rlt_dec 0 (gamma g)); [|lra].
    assert (ComputeMiddleState g (mkComplete (gamma g) [Ropp 1; 0] (1 / (2 * gamma g) + 1 / (gamma g - 1)) 1 1) (leaving g) 0 = Middle 0 0) as ->.
    { rewrite <- E. unfold ComputeMiddleState.
      assert (forall a b a' b', density a = density a' -> pressure a = pressure a' -> speed_of_sound a = speed_of_sound a' ->
        nth 0 (momentum a) 0 = nth 0 (momentum a') 0 -> density b = density b' -> pressure b = pressure b' ->
        speed_of_sound b = speed_of_sound b' -> nth 0 (momentum b) 0 = nth 0 (momentum b') 0 ->
        f_pressure g a b 0 = f_pressure g a' b' 0 /\ df_pressure g a b = df_pressure g a' b' /\
        middle_velocity g a b 0 = middle_velocity g a' b' 0 /\ pressure a = pressure a' /\ pressure b = pressure b') as K.
      { intros a b a' b' K1 K2 K3 K4 K5 K6 K7 K8. unfold f_pressure, df_pressure, middle_velocity, velocity, f_side, df_side.
        rewrite K1, K2, K3, K4, K5, K6, K7, K8. auto. }
      destruct (K (mkComplete (gamma g) [Ropp 1; 0] (1 / (2 * gamma g) + 1 / (gamma g - 1)) 1 1) (leaving g) (receding g (-1)) (receding g 1))
        as (-> & -> & -> & -> & ->); try reflexivity; cbn; lra. }
    unfold SolveFrom, assertions. destruct (Rlt_dec 0 0); [lra|]. rewrite andb_false_r. reflexivity.
Qed.
Print Assumptions C98_leaving_refuted.
