(** Lemmas for C75-C78: states given by density, velocity and pressure. *)
From Coq Require Import List Reals Lia Lra Psatz Bool.
From Verif Require Import GasModel GasSpec GasProofs NewtonModel RiemannModel RiemannSpec.
Import ListNotations.
Local Open Scope R_scope.

Lemma set_at_length d x l : length (set_at d x l) = length l.
Proof. revert d. induction l as [|y l IH]; intros [|d]; cbn; auto. Qed.

Lemma set_at_nth d x l k : (d < length l)%nat -> nth k (set_at d x l) 0 = if Nat.eqb k d then x else nth k l 0.
Proof.
  revert d k. induction l as [|y l IH]; intros d k H; [cbn in H; lia|].
  destruct d as [|d], k as [|k]; cbn; auto. cbn in H. apply IH. lia.
Qed.

Lemma set_at_same d l : set_at d (nth d l 0) l = l.
Proof. revert d. induction l as [|y l IH]; intros [|d]; cbn; auto. now rewrite IH. Qed.

Lemma squared_set d x l : (d < length l)%nat -> squaredNorm (set_at d x l) = squaredNorm l - nth d l 0 * nth d l 0 + x * x.
Proof.
  unfold squaredNorm. revert d. induction l as [|y l IH]; intros [|d] H; cbn in H |- *; try lia; [ring|].
  rewrite IH by lia. ring.
Qed.

(** the square of the transversal velocity of a side *)
Definition cross (q : Complete) (d : nat) : R :=
  squaredNorm (map (fun x => x / density q) (momentum q)) - speed q d * speed q d.

Lemma squared_map k l : squaredNorm (map (fun x => k * x) l) = k * k * squaredNorm l.
Proof. unfold squaredNorm. induction l as [|y l IH]; cbn; [ring|]. rewrite IH. ring. Qed.

Lemma nth_scaled rho q k : nth k (map (fun x => rho * (x / density q)) (momentum q)) 0 = rho * speed q k.
Proof.
  unfold speed. replace 0 with (rho * (0 / density q)) at 1 by (unfold Rdiv; ring).
  rewrite (map_nth (fun x => rho * (x / density q))). reflexivity.
Qed.

Section Prim.
Variables (g : gas) (side : Complete) (d : nat).
Hypothesis Hg : perfect g.
Hypothesis Hd : (d < length (momentum side))%nat.

Lemma prim_density rho u p : density (from_prim g rho u p side d) = rho.
Proof. reflexivity. Qed.

Lemma prim_pressure rho u p : pressure (from_prim g rho u p side d) = p.
Proof. reflexivity. Qed.

Lemma prim_length rho u p : length (momentum (from_prim g rho u p side d)) = length (momentum side).
Proof. cbn. unfold set_momentum. rewrite set_at_length, map_length. reflexivity. Qed.

Lemma prim_momentum rho u p k :
  nth k (momentum (from_prim g rho u p side d)) 0 = if Nat.eqb k d then rho * u else rho * speed side k.
Proof.
  cbn. unfold set_momentum. rewrite set_at_nth by (rewrite map_length; exact Hd). rewrite nth_scaled. reflexivity.
Qed.

Lemma prim_speed rho u p : rho <> 0 -> speed (from_prim g rho u p side d) d = u.
Proof. intros Hr. unfold speed at 1. rewrite prim_momentum, Nat.eqb_refl, prim_density. field. exact Hr. Qed.

Lemma prim_squared rho u p : squaredNorm (momentum (from_prim g rho u p side d)) = rho * rho * (u * u + cross side d).
Proof.
  unfold from_prim. cbn [momentum]. cbv zeta. unfold set_momentum. rewrite squared_set by (rewrite map_length; exact Hd). rewrite nth_scaled.
  rewrite <- (map_map (fun x => x / density side) (fun x => rho * x)), squared_map. unfold cross. ring.
Qed.

Lemma prim_energy rho u p : rho <> 0 ->
  energy (from_prim g rho u p side d) = p / (gamma g - 1) + 1 / 2 * rho * (u * u + cross side d).
Proof.
  intros Hr. pose proof (prim_squared rho u p) as S. unfold from_prim in S |- *. cbn [momentum energy] in S |- *.
  cbv zeta in S |- *. unfold KineticEnergy. rewrite S. rewrite perfect_mul by exact Hg. field. destruct Hg. split; lra.
Qed.

Lemma prim_admissible rho u p : 0 < rho -> 0 < p -> admissible g (from_prim g rho u p side d).
Proof.
  intros Hr Hp. pose proof Hg as [G _]. split; [exact Hr|]. split; [exact Hp|]. split; [|split].
  - cbn [energy density momentum pressure from_prim]. cbv zeta. rewrite perfect_mul by exact Hg.
    rewrite kinetic_energy by lra. lra.
  - apply sqrt_pos.
  - cbn. apply sound_speed; [exact Hr|]. apply Rmult_le_pos; lra.
Qed.

Lemma prim_amount rho u p c : rho <> 0 ->
  amount c (from_prim g rho u p side d) =
  match c with
  | Mass => rho
  | Momentum k => if Nat.eqb k d then rho * u else rho * speed side k
  | Energy => p / (gamma g - 1) + 1 / 2 * rho * (u * u + cross side d)
  end.
Proof.
  intros Hr. destruct c as [|k|]; [reflexivity | apply prim_momentum | apply prim_energy; exact Hr].
Qed.

Lemma prim_transport rho u p c : rho <> 0 ->
  transport c (from_prim g rho u p side d) d =
  match c with
  | Mass => rho * u
  | Momentum k => if Nat.eqb k d then rho * u * u + p else rho * u * speed side k
  | Energy => (p / (gamma g - 1) + 1 / 2 * rho * (u * u + cross side d) + p) * u
  end.
Proof.
  intros Hr. destruct c as [|k|]; cbn [transport].
  - rewrite prim_speed by exact Hr. reflexivity.
  - rewrite prim_speed by exact Hr. rewrite prim_momentum, prim_pressure. destruct (Nat.eqb k d); ring.
  - rewrite prim_speed by exact Hr. rewrite prim_energy by exact Hr. rewrite prim_pressure. reflexivity.
Qed.

(** A smooth solution of the equations for density, velocity and pressure. *)
Lemma smooth_solution (rho u p : R -> R) xi rho' u' p' :
  (forall x, 0 < rho x) ->
  derivable_pt_lim rho xi rho' -> derivable_pt_lim u xi u' -> derivable_pt_lim p xi p' ->
  rho' * (u xi - xi) + rho xi * u' = 0 ->
  rho xi * (u xi - xi) * u' + p' = 0 ->
  (u xi - xi) * p' + gamma g * p xi * u' = 0 ->
  conserved_at d (fun x => from_prim g (rho x) (u x) (p x) side d) xi.
Proof.
  intros Hr Dr Du Dp E1 E2 E3 c.
  assert (forall f f' l, (forall x, f x = f' x) -> derivable_pt_lim f' xi l -> derivable_pt_lim f xi l) as ext.
  { intros f f' l E H e He. destruct (H e He) as [dl Hdl]. exists dl. intros h H1 H2. rewrite !E. apply Hdl; auto. }
  assert (forall x, rho x <> 0) as Hn by (intros x; specialize (Hr x); lra).
  pose proof (derivable_pt_lim_mult _ _ _ _ _ Dr Du) as Dru.
  pose proof (derivable_pt_lim_mult _ _ _ _ _ Dru Du) as Druu.
  pose proof Hg as [G _].
  destruct c as [|k|].
  - exists rho', (rho' * u xi + rho xi * u'). split; [|split].
    + refine (ext _ _ _ (fun x => prim_amount _ _ _ Mass (Hn x)) _). exact Dr.
    + refine (ext _ _ _ (fun x => prim_transport _ _ _ Mass (Hn x)) _). exact Dru.
    + lra.
  - destruct (Nat.eqb k d) eqn:Ek.
    + exists (rho' * u xi + rho xi * u'), ((rho' * u xi + rho xi * u') * u xi + rho xi * u xi * u' + p'). split; [|split].
      * refine (ext _ (fun x => rho x * u x) _ _ _).
        -- intros x. rewrite prim_amount by auto. cbn. rewrite Ek. reflexivity.
        -- exact Dru.
      * refine (ext _ (fun x => rho x * u x * u x + p x) _ _ _).
        -- intros x. rewrite prim_transport by auto. cbn. rewrite Ek. reflexivity.
        -- apply (derivable_pt_lim_plus (fun x => rho x * u x * u x) p); [|exact Dp]. exact Druu.
      * apply Rminus_diag_uniq.
        replace ((rho' * u xi + rho xi * u') * u xi + rho xi * u xi * u' + p' - xi * (rho' * u xi + rho xi * u'))
          with (u xi * (rho' * (u xi - xi) + rho xi * u') + (rho xi * (u xi - xi) * u' + p')) by ring.
        rewrite E1, E2. ring.
    + exists (rho' * speed side k), ((rho' * u xi + rho xi * u') * speed side k). split; [|split].
      * refine (ext _ (fun x => rho x * speed side k) _ _ _).
        -- intros x. rewrite prim_amount by auto. cbn. rewrite Ek. reflexivity.
        -- replace (rho' * speed side k) with (rho' * speed side k + rho xi * 0) by ring.
           apply (derivable_pt_lim_mult rho (fun _ => speed side k)); [exact Dr | apply derivable_pt_lim_const].
      * refine (ext _ (fun x => rho x * u x * speed side k) _ _ _).
        -- intros x. rewrite prim_transport by auto. cbn. rewrite Ek. reflexivity.
        -- replace ((rho' * u xi + rho xi * u') * speed side k)
             with ((rho' * u xi + rho xi * u') * speed side k + rho xi * u xi * 0) by ring.
           apply (derivable_pt_lim_mult (fun x => rho x * u x) (fun _ => speed side k)); [exact Dru | apply derivable_pt_lim_const].
      * apply Rminus_diag_uniq.
        replace ((rho' * u xi + rho xi * u') * speed side k - xi * (rho' * speed side k))
          with (speed side k * (rho' * (u xi - xi) + rho xi * u')) by ring. rewrite E1. ring.
  - set (T := cross side d).
    set (e' := p' * / (gamma g - 1) + (1 / 2 * rho' * (u xi * u xi + T) + 1 / 2 * rho xi * (2 * u xi * u'))).
    assert (derivable_pt_lim (fun x => p x / (gamma g - 1) + 1 / 2 * rho x * (u x * u x + T)) xi e') as De.
    { unfold e'. apply (derivable_pt_lim_plus (fun x => p x / (gamma g - 1)) (fun x => 1 / 2 * rho x * (u x * u x + T))).
      - replace (p' * / (gamma g - 1)) with (p' * / (gamma g - 1) + p xi * 0) by ring.
        apply (derivable_pt_lim_mult p (fun _ => / (gamma g - 1))); [exact Dp | apply derivable_pt_lim_const].
      - apply (derivable_pt_lim_mult (fun x => 1 / 2 * rho x) (fun x => u x * u x + T)).
        + apply (derivable_pt_lim_scal rho (1 / 2)). exact Dr.
        + replace (2 * u xi * u') with ((u' * u xi + u xi * u') + 0) by ring.
          apply (derivable_pt_lim_plus (fun x => u x * u x) (fun _ => T)); [|apply derivable_pt_lim_const].
          apply (derivable_pt_lim_mult u u); exact Du. }
    exists e', ((e' + p') * u xi + (p xi / (gamma g - 1) + 1 / 2 * rho xi * (u xi * u xi + T) + p xi) * u'). split; [|split].
    + refine (ext _ _ _ (fun x => prim_amount _ _ _ Energy (Hn x)) _). exact De.
    + refine (ext _ _ _ (fun x => prim_transport _ _ _ Energy (Hn x)) _).
      apply (derivable_pt_lim_mult (fun x => p x / (gamma g - 1) + 1 / 2 * rho x * (u x * u x + T) + p x) u); [|exact Du].
      apply (derivable_pt_lim_plus (fun x => p x / (gamma g - 1) + 1 / 2 * rho x * (u x * u x + T)) p); [exact De | exact Dp].
    + apply Rminus_diag_uniq. unfold e'.
      match goal with |- ?l = 0 =>
        replace l with (/ (gamma g - 1) * ((u xi - xi) * p' + gamma g * p xi * u') + 
                        1 / 2 * (u xi * u xi + T) * (rho' * (u xi - xi) + rho xi * u') +
                        u xi * (rho xi * (u xi - xi) * u' + p')) by (field; lra) end.
      rewrite E1, E2, E3. ring.
Qed.

Lemma constant_solution rho u p xi : 0 < rho -> conserved_at d (fun _ => from_prim g rho u p side d) xi.
Proof.
  intros Hr. apply (smooth_solution (fun _ => rho) (fun _ => u) (fun _ => p) xi 0 0 0); auto;
    try apply derivable_pt_lim_const; ring.
Qed.

(** The state itself. *)
Lemma prim_self : admissible g side -> from_prim g (density side) (velocity side d) (pressure side) side d = side.
Proof.
  intros (Hr & Hp & He & Ha & Hs). destruct side as [rho m E p a]. cbn in *. unfold from_prim, set_momentum, velocity in *. cbn in *.
  assert (map (fun x => rho * (x / rho)) m = m) as Em.
  { rewrite <- (map_id m) at 2. apply map_ext. intros x. field. lra. }
  assert (rho * (nth d m 0 / rho) = nth d m 0) as -> by (field; lra).
  rewrite Em, set_at_same. f_equal.
  - rewrite He, perfect_mul by exact Hg. rewrite kinetic_energy by lra. lra.
  - replace (gamma g * p / rho) with (a * a); [apply sqrt_square; exact Ha|].
    rewrite <- Hs. field. lra.
Qed.
End Prim.

(** ** Two states of the same gas: jump conditions *)

(** Jump conditions for states with the same transversal velocities in terms of density, velocity and pressure. *)
Lemma jump_conditions g side d s rho0 u0 p0 rho1 u1 p1 :
  perfect g -> (d < length (momentum side))%nat -> rho0 <> 0 -> rho1 <> 0 ->
  rho1 * (u1 - s) = rho0 * (u0 - s) ->
  p1 - p0 = rho0 * (u0 - s) * (u0 - u1) ->
  p1 * u1 - p0 * u0 = rho0 * (u0 - s) * (p0 / rho0 - p1 / rho1) / (gamma g - 1) + rho0 * (u0 - s) * (u0 * u0 - u1 * u1) / 2 ->
  forall c, transport c (from_prim g rho1 u1 p1 side d) d - transport c (from_prim g rho0 u0 p0 side d) d =
            s * (amount c (from_prim g rho1 u1 p1 side d) - amount c (from_prim g rho0 u0 p0 side d)).
Proof.
  intros Hg Hd H0 H1 E1 E2 E3 c. pose proof Hg as [G _].
  rewrite !prim_transport, !prim_amount by auto. destruct c as [|k|].
  - lra.
  - destruct (Nat.eqb k d).
    + apply Rminus_diag_uniq.
      replace (rho1 * u1 * u1 + p1 - (rho0 * u0 * u0 + p0) - s * (rho1 * u1 - rho0 * u0))
        with (u1 * (rho1 * (u1 - s)) - u0 * (rho0 * (u0 - s)) + (p1 - p0)) by ring. rewrite E1, E2. ring.
    + apply Rminus_diag_uniq.
      replace (rho1 * u1 * speed side k - rho0 * u0 * speed side k - s * (rho1 * speed side k - rho0 * speed side k))
        with (speed side k * (rho1 * (u1 - s) - rho0 * (u0 - s))) by ring. rewrite E1. ring.
  - set (T := cross side d). apply Rminus_diag_uniq. set (j := rho0 * (u0 - s)) in *.
    match goal with |- ?l = 0 =>
      replace l with ((p1 * u1 - p0 * u0) + (rho1 * (u1 - s)) * (p1 / rho1 / (gamma g - 1) + 1 / 2 * (u1 * u1 + T)) -
                      (rho0 * (u0 - s)) * (p0 / rho0 / (gamma g - 1) + 1 / 2 * (u0 * u0 + T))) by (field; repeat split; lra) end.
    fold j. rewrite E1, E3. field. repeat split; lra.
Qed.
