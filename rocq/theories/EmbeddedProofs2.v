(** Lemmas for C98: the state at the wall in the frame of the grid. *)
From Coq Require Import List Reals Lra Lia ZArith Bool Psatz.
From Verif Require Import GasModel GasSpec GasProofs NewtonModel RiemannModel RiemannSpec RiemannProofs RiemannProofs2 RiemannProofs3 RiemannProofs4 RiemannProofs5 EmbeddedModel EmbeddedSpec EmbeddedProofs.
Import ListNotations.
Local Open Scope R_scope.

Lemma wave_velocity_phi g q p : perfect g -> admissible g q -> 0 < p -> wave_velocity g q p = phi g q p.
Proof.
  intros [G _] (A & B & _) Hp. unfold wave_velocity, phi. destruct (Rlt_dec (pressure q) p) as [L|L]; [|reflexivity].
  f_equal. f_equal. assert (0 < (gamma g + 1) * p) by (apply Rmult_lt_0_compat; lra).
  assert (0 < (gamma g - 1) * pressure q) by (apply Rmult_lt_0_compat; lra). field. repeat split; lra.
Qed.

Lemma wave_density_middle g q p u : perfect g -> admissible g q -> 0 < p ->
  density (left_middle g q 0 p u) = wave_density g q p.
Proof.
  intros [G _] (A & B & _) Hp. unfold left_middle, wave_density. destruct (Rlt_dec (pressure q) p) as [L|L].
  - unfold shocked. rewrite prim_density. assert (0 < (gamma g + 1) * pressure q) by (apply Rmult_lt_0_compat; lra).
    assert (0 < (gamma g - 1) * p) by (apply Rmult_lt_0_compat; lra). field. repeat split; lra.
  - unfold rarefied. rewrite prim_density. reflexivity.
Qed.

Lemma along_dot q n : along q n = dot (momentum q) n / density q.
Proof. unfold along. rewrite inner_dot. reflexivity. Qed.

Section Wall.
Variables (g : gas) (q : Complete) (n : list R).
Hypothesis Hg : perfect g.
Hypothesis Hq : admissible g q.
Hypothesis Hn : length n = 2%nat \/ length n = 3%nat.
Hypothesis Hl : length (momentum q) = length n.
Hypothesis Hu : unit n.
Let Q := rotation_to_x n.
Let Q' := rotation_from_x n.
Let s := Rotate q Q.
Let l := Reflect s (unit_x (length n)).

Lemma wall_frame : frame n Q Q'.
Proof. apply frame_exists; assumption. Qed.

Lemma wall_length : length (momentum s) = length n.
Proof. destruct wall_frame as (L & _). apply L. exact Hl. Qed.

Lemma wall_cons : exists x m, momentum s = x :: m /\ x = dot (momentum q) n /\ S (length m) = length n.
Proof.
  pose proof wall_length as L. destruct wall_frame as (_ & _ & _ & F). specialize (F (momentum q) Hl).
  change (mat_vec Q (momentum q)) with (momentum s) in F.
  destruct (momentum s) as [|x m]; [cbn in L; lia|]. exists x, m. cbn in F, L. auto.
Qed.

Lemma wall_rotated : admissible g s.
Proof. apply (rotate_admissible g q n Q Q'); [exact wall_frame|exact Hl|exact Hq]. Qed.

Lemma wall_velocity : velocity s 0 = along q n.
Proof.
  destruct wall_cons as (x & m & E & Ex & _). unfold velocity. rewrite E, along_dot. cbn [nth]. rewrite Ex. reflexivity.
Qed.

Lemma wall_tangential a t : length a = length n -> length t = length n -> dot n t = 0 ->
  dot (mat_vec Q' a) t = dot a (mat_vec Q t) /\ nth 0 (mat_vec Q t) 0 = 0.
Proof.
  intros La Lt Z. destruct wall_frame as (L & I & D & F). split.
  - rewrite <- (D (mat_vec Q' a) t); [|apply L; exact La|exact Lt]. rewrite (proj2 (I a La)). reflexivity.
  - rewrite F by exact Lt. rewrite dot_comm. exact Z.
Qed.

Lemma back_state p : 0 < p -> Rabs (phi g s p + velocity s 0) <= accuracy / 2 ->
  wall_state g q n (Rotate (left_middle g l 0 p 0) Q') /\ pressure (left_middle g l 0 p 0) = p.
Proof.
  intros Hp Hr. destruct wall_cons as (x & m & E & Ex & Em).
  assert (length n = length (momentum s)) as Ln by (symmetry; exact wall_length).
  assert (l = Reflect s (unit_x (length (momentum s)))) as El by (unfold l; rewrite Ln; reflexivity).
  assert (admissible g l) as Al by (rewrite El; apply (mirror_admissible g s x m wall_rotated E)).
  assert (momentum l = - x :: m) as Ml by (rewrite El; apply (mirror_momentum s x m E)).
  destruct (left_middle_prim g l 0 p 0 Hg Al Hp) as (rho & Prho & EM).
  assert (density (left_middle g l 0 p 0) = wave_density g q p) as Dm by (rewrite (wave_density_middle g l p 0 Hg Al Hp); reflexivity).
  rewrite EM. rewrite EM in Dm. clear EM.
  set (w := from_prim g rho 0 p l 0) in *.
  assert (momentum w = rho * 0 :: map (fun y => rho * (y / density q)) m) as Mw.
  { unfold w, from_prim. cbn [momentum]. unfold set_momentum. rewrite Ml. cbn [map set_at]. reflexivity. }
  assert (length (momentum w) = length n) as Lw by (rewrite Mw; cbn [length]; rewrite map_length; exact Em).
  destruct wall_frame as (LL & I & D & FF).
  split; [|unfold w; apply prim_pressure]. unfold wall_state. split; [|split; [|split; [|split; [|split]]]].
  - apply (rotate_back_admissible g w n Q Q' wall_frame Lw). unfold w. apply prim_admissible; auto.
  - cbn [momentum Rotate]. apply LL. exact Lw.
  - rewrite along_dot. cbn [momentum density Rotate]. rewrite <- FF by (apply LL; exact Lw). rewrite (proj2 (I _ Lw)), Mw. cbn [nth].
    unfold Rdiv. ring.
  - intros t Lt Z. rewrite inner_dot in Z. rewrite !along_dot. cbn [momentum density Rotate].
    destruct (wall_tangential (momentum w) t Lw Lt Z) as [T1 T0]. rewrite T1.
    rewrite <- (D (momentum q) t Hl Lt). change (mat_vec Q (momentum q)) with (momentum s). rewrite E, Mw.
    destruct (mat_vec Q t) as [|t0 tt]; [cbn; unfold Rdiv; rewrite !Rmult_0_l; reflexivity|]. cbn in T0. subst t0. cbn [dot].
    change (density w) with rho. pose proof Hq as (Dq & _).
    assert (dot (map (fun y => rho * (y / density q)) m) tt = rho / density q * dot m tt) as ->.
    { clear. revert tt. induction m as [|y m IH]; intros [|z tt]; cbn; [ring|ring|ring|]. rewrite IH. unfold Rdiv. ring. }
    field. lra.
  - cbn [density pressure Rotate]. rewrite Dm. reflexivity.
  - cbn [pressure Rotate]. change (pressure w) with p. rewrite (wave_velocity_phi g q p Hg Hq Hp).
    rewrite <- wall_velocity. replace (velocity s 0 + phi g q p) with (phi g s p + velocity s 0); [exact Hr|].
    change (phi g q p) with (phi g s p). ring.
Qed.

Lemma wall_solution old : gamma g <= 2 -> accuracy < (gamma g - 1) * speed_of_sound q -> moderate g q n ->
  exists w, WallRiemannProblem g old q n = Some w /\ wall_state g q n w.
Proof.
  intros G2 T (M1 & M2 & M3). destruct wall_cons as (x & m & E & Ex & Em).
  assert (length n = length (momentum s)) as Ln by (symmetry; exact wall_length).
  pose proof (mirror_converges g s x m Hg wall_rotated E) as C. rewrite wall_velocity in C.
  change (speed_of_sound s) with (speed_of_sound q) in C. destruct (C M1 M2 M3) as (p & EM & Hp & Hr).
  pose proof (mirror_solve g s x m Hg wall_rotated E old p G2 T Hp) as SV. rewrite wall_velocity in SV.
  specialize (SV Hr EM). rewrite <- Ln in SV. fold l in SV.
  exists (Rotate (left_middle g l 0 p 0) Q'). split.
  - unfold WallRiemannProblem. fold Q Q' s l. rewrite SV. reflexivity.
  - apply back_state; [exact Hp|]. rewrite wall_velocity. exact Hr.
Qed.

(** A flow along the wall *)
Lemma wall_tangential_flow old : along q n = 0 -> WallRiemannProblem g old q n = Some q.
Proof.
  intros Z. destruct wall_cons as (x & m & E & Ex & Em).
  assert (x = 0) as X0.
  { rewrite Ex. rewrite along_dot in Z. pose proof Hq as (Dq & _).
    replace (dot (momentum q) n) with (dot (momentum q) n / density q * density q) by (field; lra). rewrite Z. ring. }
  assert (l = s) as ->.
  { unfold l, Reflect. rewrite E. rewrite <- Em, mirror_vector. rewrite X0. replace (- 0) with 0 by ring. rewrite <- X0, <- E.
    destruct s; reflexivity. }
  unfold WallRiemannProblem. fold Q Q' s.
  assert (Reflect s (unit_x (length n)) = s) as ->.
  { unfold Reflect. rewrite E. rewrite <- Em, mirror_vector. rewrite X0. replace (- 0) with 0 by ring. rewrite <- X0, <- E.
    destruct s; reflexivity. }
  assert (SolveRiemannProblem g old s s 0 = Some s) as ->.
  { unfold SolveRiemannProblem. pose proof wall_rotated as As.
    destruct (Rlt_dec 0 (density s)) as [_|N]; [|exfalso; apply N; apply As].
    rewrite (equal_middle g s 0 Hg As). 
    assert (0 < length (momentum s))%nat as L0 by (rewrite wall_length; destruct Hn; lia).
    assert (phi g s (pressure s) = 0) as P0 by (apply (phi_p0 g s Hg As)).
    rewrite (solve_from g s s 0 (pressure s) (velocity s 0)); auto; try lra; [|apply As].
    f_equal. apply equal_solution; auto. }
  cbn [option_map]. f_equal. unfold s, Rotate. cbn [density momentum energy pressure speed_of_sound].
  destruct wall_frame as (_ & I & _ & _). rewrite (proj1 (I _ Hl)). destruct q; reflexivity.
Qed.
End Wall.

(** ** The sum over the faces of the embedded boundary *)

Lemma flux_sum a w n c (pw : nat -> R) (fl : nat -> Cons) : 0 < density w -> length (momentum w) = length n -> inner (momentum w) n = 0 ->
  (forall k, c = Momentum k -> (k < length n)%nat) ->
  (forall d, (d < length n)%nat -> fl d = mkCons (c_density (Flux w d)) (add_at d (pw d - pressure w) (c_momentum (Flux w d))) (c_energy (Flux w d))) ->
  sum (map (fun d => a * nth d n 0 * component c (fl d)) (seq 0 (length n))) =
  match c with Momentum k => a * nth k n 0 * pw k | _ => 0 end.
Proof.
  intros Dw Lw Z Hc Hf.
  assert (sum (map (fun d => nth d (momentum w) 0 * nth d n 0) (seq 0 (length n))) = 0) as Z0.
  { transitivity (dot (momentum w) n); [|rewrite <- inner_dot; exact Z]. clear - Lw. rewrite <- Lw at 1. revert n Lw. induction (momentum w) as [|x m IH]; intros [|y n] L; try discriminate; [reflexivity|].
    cbn [length seq map sum dot nth]. f_equal. rewrite <- seq_shift, map_map. injection L as L. rewrite <- (IH n L). reflexivity. }
  assert (forall d, (d < length n)%nat -> component c (fl d) =
    transport c w d + match c with Momentum k => if Nat.eqb k d then pw d - pressure w else 0 | _ => 0 end) as Hcf.
  { intros d Hd. rewrite (Hf d Hd). rewrite <- flux_component; auto; [|intros k Ek; rewrite Lw; auto].
    destruct c as [|k|]; cbn [component c_density c_momentum c_energy]; try ring.
    rewrite nth_add_at; [reflexivity|]. unfold Flux. cbn [c_momentum]. specialize (Hc k eq_refl).
    assert (forall d x (v : list R), length (add_at d x v) = length v) as AL.
    { clear. intros d x v. revert d. induction v as [|y v IH]; intros [|d]; cbn; auto. }
    rewrite AL, map_length. lia. }
  assert (forall (h : nat -> R) k0 N, (forall d, (k0 <= d < k0 + N)%nat -> a * nth d n 0 * component c (fl d) = h d) ->
    sum (map (fun d => a * nth d n 0 * component c (fl d)) (seq k0 N)) = sum (map h (seq k0 N))) as EXT.
  { intros h k0 N H. f_equal. apply map_ext_in. intros d Hd. apply in_seq in Hd. apply H. lia. }
  assert (forall K (h : nat -> R) L, sum (map (fun d => K * h d) L) = K * sum (map h L)) as SC.
  { clear. intros K h L. induction L as [|y L IH]; cbn; [ring|]. rewrite IH. ring. }
  assert (forall (h1 h2 : nat -> R) L, sum (map (fun d => h1 d + h2 d) L) = sum (map h1 L) + sum (map h2 L)) as AD.
  { clear. intros h1 h2 L. induction L as [|y L IH]; cbn; [ring|]. rewrite IH. ring. }
  destruct c as [|k|].
  - rewrite (EXT (fun d => a * (nth d (momentum w) 0 * nth d n 0))).
    + rewrite SC, Z0. ring.
    + intros d Hd. rewrite Hcf by lia. unfold transport, speed. field. lra.
  - specialize (Hc k eq_refl).
    rewrite (EXT (fun d => a * nth k (momentum w) 0 / density w * (nth d (momentum w) 0 * nth d n 0) + (if Nat.eqb k d then a * nth d n 0 * pw d else 0))).
    + rewrite AD, SC, Z0.
      assert (forall (h : nat -> R) k0 N, (k0 <= k < k0 + N)%nat -> sum (map (fun d => if Nat.eqb k d then h d else 0) (seq k0 N)) = h k) as PK.
      { clear. intros h k0 N. revert k0. induction N as [|N IH]; intros k0 H; [lia|]. cbn [seq map sum].
        destruct (Nat.eqb_spec k k0) as [->|Ne].
        - assert (forall j M, (k0 < j)%nat -> sum (map (fun d => if Nat.eqb k0 d then h d else 0) (seq j M)) = 0) as Zr.
          { clear. intros j M. revert j. induction M as [|M IH]; intros j H; cbn [seq map sum]; [reflexivity|].
            destruct (Nat.eqb_spec k0 j); [lia|]. rewrite IH by lia. ring. }
          rewrite Zr by lia. ring.
        - rewrite IH by lia. ring. }
      rewrite (PK (fun d => a * nth d n 0 * pw d)) by lia. ring.
    + intros d Hd. rewrite Hcf by lia. unfold transport, speed. destruct (Nat.eqb k d); field; lra.
  - rewrite (EXT (fun d => a * (energy w + pressure w) / density w * (nth d (momentum w) 0 * nth d n 0))).
    + rewrite SC, Z0. ring.
    + intros d Hd. rewrite Hcf by lia. unfold transport, speed. field. lra.
Qed.
