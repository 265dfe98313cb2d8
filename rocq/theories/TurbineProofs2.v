(** Lemmas for C131: the state behind a wave with a given mass flow. *)
From Coq Require Import List Reals Ranalysis5 ZArith Bool Lia Lra Psatz.
From Verif Require Import GasModel GasSpec GasProofs NewtonModel RiemannModel RiemannSpec RiemannProofs RiemannProofs2 RiemannProofs3 RiemannProofs4.
From Verif Require Import BoundaryModel TurbineModel TurbineSpec.
Import ListNotations.
Local Open Scope R_scope.

Lemma nth_velocity q k : nth k (map (fun m => m / density q) (momentum q)) 0 = speed q k.
Proof.
  unfold speed. replace 0 with (0 / density q) at 1 by (unfold Rdiv; ring). rewrite (map_nth (fun m => m / density q)). reflexivity.
Qed.

Lemma map_set_at (f : R -> R) d x l : map f (set_at d x l) = set_at d (f x) (map f l).
Proof. revert d. induction l as [|y l IH]; intros [|d]; cbn; auto. now rewrite IH. Qed.

Lemma set_prim g q d rho u p :
  CompleteFromPrim g (mkPrim rho (set_at d u (map (fun m => m / density q) (momentum q))) p) = from_prim g rho u p q d.
Proof.
  unfold CompleteFromPrim, from_prim, set_momentum, vscale. cbn [p_density p_velocity p_pressure]. cbv zeta.
  rewrite map_set_at, map_map. f_equal. apply Rplus_comm.
Qed.

Section Wave.
Variables (g : gas) (l : Complete) (d : nat) (mstar : R).
Hypothesis Hg : perfect g.
Hypothesis Hl : admissible g l.
Hypothesis Hd : (d < length (momentum l))%nat.

Definition the_data : user_data := mkData (density l) (speed l d) (pressure l) (speed_of_sound l) (gamma g) mstar.
Let D := the_data.

Lemma u_star_phi p : 0 < p -> u_star D p = velocity l d - 1 * phi g l p.
Proof.
  intros H. destruct (side_facts g l Hg Hl) as (G & Hr & Hp & Ha & He).
  unfold u_star, u_rarefaction, u_shock, f_rarefaction, f_shock, D, the_data. cbn [rhoL uL pL aL dgamma rhou_star]. cbv zeta.
  unfold phi. change (velocity l d) with (speed l d).
  destruct (Rlt_dec p (pressure l)) as [L|L]; destruct (Rlt_dec (pressure l) p) as [L'|L']; try lra.
  - replace ((gamma g - 1) / 2 / gamma g) with ((gamma g - 1) / (2 * gamma g)) by (field; lra). field. lra.
  - replace (pressure l * ((gamma g - 1) / (gamma g + 1))) with ((gamma g - 1) / (gamma g + 1) * pressure l) by ring. ring.
  - assert (p = pressure l) as -> by lra. replace (pressure l / pressure l) with 1 by (field; lra). rewrite Rpower_base_1. ring.
Qed.

Definition behind (p : R) : Complete := left_middle g l d p (u_star D p).

Lemma rho_star_density p : 0 < p -> rho_star D p = density (behind p).
Proof.
  intros H. destruct (side_facts g l Hg Hl) as (G & Hr & Hp & Ha & He).
  unfold behind, left_middle, rho_star, rho_rarefaction, rho_shock, D, the_data. cbn [rhoL uL pL aL dgamma rhou_star]. cbv zeta.
  destruct (Rlt_dec p (pressure l)) as [L|L]; destruct (Rlt_dec (pressure l) p) as [L'|L']; try lra.
  - reflexivity.
  - unfold shocked. cbv zeta. rewrite prim_density. unfold Rdiv. rewrite (Rplus_comm ((gamma g - 1) * / (gamma g + 1))). ring.
  - assert (p = pressure l) as -> by lra. unfold rarefied. rewrite prim_density.
    replace (pressure l / pressure l) with 1 by (field; lra). rewrite Rpower_base_1.
    field. lra.
Qed.

Lemma ghost_behind p : 0 < p -> from_prim g (rho_star D p) (u_star D p) p l d = behind p.
Proof.
  intros H. rewrite rho_star_density by exact H. unfold behind, left_middle. destruct (Rlt_dec (pressure l) p); reflexivity.
Qed.

Lemma behind_facts p : 0 < p ->
  admissible g (behind p) /\ length (momentum (behind p)) = length (momentum l) /\ pressure (behind p) = p /\
  speed (behind p) d = u_star D p /\ (forall k, k <> d -> speed (behind p) k = speed l k) /\
  nth d (momentum (behind p)) 0 = rho_star D p * u_star D p.
Proof.
  intros H. pose proof (left_middle_admissible g l d p (u_star D p) Hg Hl H) as A. fold (behind p) in A.
  split; [exact A|]. rewrite <- ghost_behind in A |- * by exact H. destruct A as [A _]. rewrite prim_density in A.
  split; [apply prim_length|]. split; [reflexivity|]. split; [apply prim_speed; auto; lra|]. split.
  - intros k Hk. unfold speed at 1. rewrite prim_momentum, prim_density by exact Hd.
    destruct (Nat.eqb k d) eqn:E; [apply Nat.eqb_eq in E; lia|]. field. lra.
  - rewrite prim_momentum, Nat.eqb_refl by exact Hd. reflexivity.
Qed.

(** The right wave vanishes. *)
Lemma right_trivial q x : admissible g q -> (d < length (momentum q))%nat -> right_wave g q d (pressure q) (velocity q d) x = q.
Proof.
  intros Hq Hdq. pose proof Hq as (Hr & Hp & _).
  assert (velocity q d = velocity q d - -1 * phi g q (pressure q)) as Hu by (rewrite (phi_p0 g q Hg Hq); ring).
  rewrite (right_wave_rarefaction g q d (pressure q) (velocity q d) Hg Hq Hp Hu) by lra.
  assert (sound_ratio g q (pressure q) = 1) as E
    by (unfold sound_ratio; replace (pressure q / pressure q) with 1 by (field; lra); apply Rpower_base_1).
  rewrite E. destruct (Rle_dec _ x); [reflexivity|]. destruct (Rle_dec x _); [|lra].
  unfold rarefied. replace (pressure q / pressure q) with 1 by (field; lra). rewrite Rpower_base_1, Rmult_1_r.
  apply prim_self; auto.
Qed.

Lemma behind_solution p : 0 < p -> let q := behind p in
  riemann_solution g d l q (solution g l q d p (u_star D p)) /\
  (forall xi, speed q d <= xi -> solution g l q d p (u_star D p) xi = q) /\
  (speed l d < speed_of_sound l -> speed q d < speed_of_sound q -> solution g l q d p (u_star D p) 0 = q).
Proof.
  intros H q. destruct (behind_facts p H) as (A & L & P & U & _). fold q in A, L, P, U.
  pose proof (u_star_phi p H) as HuL.
  assert (velocity q d = u_star D p) as V by exact U.
  assert (u_star D p = velocity q d - -1 * phi g q p) as HuR by (rewrite V, <- P at 1; rewrite <- P at 2; rewrite (phi_p0 g q Hg A); rewrite P; ring).
  assert (forall x, right_wave g q d p (u_star D p) x = q) as RT by (intros x; rewrite <- P at 1; rewrite <- V; apply right_trivial; [exact A | lia]).
  split; [apply solution_riemann; auto; lra|]. split.
  - intros xi Hxi. rewrite U in Hxi. unfold solution. destruct (Rle_dec xi (u_star D p)) as [Le|_]; [|apply RT].
    assert (xi = u_star D p) as -> by lra.
    destruct (left_near_contact g l d p (u_star D p) Hg Hl H HuL) as (a & Ha & Na). apply Na. lra.
  - intros Sl Sq. rewrite U in Sq. unfold solution. destruct (Rle_dec 0 (u_star D p)) as [Le|_]; [|apply RT].
    destruct (side_facts g l Hg Hl) as (G & Hr & Hp & Ha & He).
    destruct (Rlt_dec (pressure l) p) as [S|R].
    + rewrite left_wave_shock by auto. assert (speed_of_sound l <= signal_distance g l p) as SD.
      { unfold signal_distance. cbv zeta. destruct (Rlt_dec (pressure l) p); [|lra].
        rewrite <- (Rmult_1_r (speed_of_sound l)) at 1. apply Rmult_le_compat_l; [lra|]. rewrite <- sqrt_1 at 1. apply sqrt_le_1_alt.
        assert (1 <= p / pressure l) by (apply (Rmult_le_reg_r (pressure l)); [exact Hp|]; unfold Rdiv; rewrite Rmult_assoc, Rinv_l; lra).
        apply (Rmult_le_reg_r (2 * gamma g)); [lra|]. unfold Rdiv. rewrite Rmult_assoc, Rinv_l by lra. fold (p / pressure l).
        assert (0 <= (gamma g + 1) * (p / pressure l - 1)) by (apply Rmult_le_pos; lra). lra. }
      change (velocity l d) with (speed l d).
      destruct (Rlt_dec _ 0) as [_|N]; [|lra]. unfold q, behind, left_middle. destruct (Rlt_dec (pressure l) p); [reflexivity|lra].
    + assert (0 < p <= pressure l) as Hp' by lra.
      rewrite (left_wave_rarefaction g l d p (u_star D p) Hg Hl H HuL) by lra.
      pose proof (head_tail g l d 1 Hg Hl one_sign p (u_star D p) Hp' HuL) as (H1 & _ & H2).
      assert (speed_of_sound q = speed_of_sound l * sound_ratio g l p) as Aq.
      { destruct A as (A1 & A2 & _ & A3 & A4). pose proof (rho_star_density p H) as Er. fold q in Er.
        assert (rho_star D p = density l * Rpower (p / pressure l) (1 / gamma g)) as Er'.
        { rewrite Er. unfold q, behind, left_middle. destruct (Rlt_dec (pressure l) p); [lra|reflexivity]. }
        assert (0 < p / pressure l) as Q by (apply Rdiv_lt_0_compat; lra).
        assert (0 < sound_ratio g l p) as Q1 by apply Rpower_pos.
        assert (density q * (speed_of_sound l * sound_ratio g l p * (speed_of_sound l * sound_ratio g l p)) = gamma g * p) as Z.
        { rewrite <- Er, Er'. replace (density l * Rpower (p / pressure l) (1 / gamma g) * (speed_of_sound l * sound_ratio g l p * (speed_of_sound l * sound_ratio g l p)))
            with (density l * (speed_of_sound l * speed_of_sound l) * (Rpower (p / pressure l) (1 / gamma g) * (sound_ratio g l p * sound_ratio g l p))) by ring.
          rewrite He. unfold sound_ratio. rewrite <- !Rpower_plus.
          replace (1 / gamma g + ((gamma g - 1) / (2 * gamma g) + (gamma g - 1) / (2 * gamma g))) with 1 by (field; lra).
          rewrite Rpower_1 by exact Q. field. lra. }
        rewrite P in A4. rewrite <- Z in A4. apply Rmult_eq_reg_l in A4; [|lra].
        apply Rsqr_inj; auto. apply Rlt_le, Rmult_lt_0_compat; lra. }
      rewrite Aq in Sq. change (velocity l d) with (speed l d) in H1 |- *.
      destruct (Rlt_dec 0 _) as [X|_]; [lra|]. destruct (Rlt_dec _ 0) as [_|N]; [|lra].
      unfold q, behind, left_middle. destruct (Rlt_dec (pressure l) p); [lra|reflexivity].
Qed.

Lemma behind_wave_behind p : 0 < p -> behind_wave g d l (behind p).
Proof. intros H. destruct (behind_solution p H) as (A & B & _). exists (solution g l (behind p) d p (u_star D p)). split; assumption. Qed.

(** ** The mass flow as a function of the pressure *)

Lemma delta_flow p : 0 < p -> delta_rhou D p = rho_star D p * u_star D p - mstar.
Proof. intros H. unfold delta_rhou, rho_star, u_star. destruct (Rlt_dec p (pL D)); reflexivity. Qed.

Lemma continuity_glue (f f1 f2 : R -> R) a x : (forall y, y < a -> f y = f1 y) -> (forall y, a <= y -> f y = f2 y) -> f1 a = f2 a ->
  (x <= a -> continuity_pt f1 x) -> (a <= x -> continuity_pt f2 x) -> continuity_pt f x.
Proof.
  intros H1 H2 E C1 C2.
  assert (forall y, y <= a -> f y = f1 y) as H1' by (intros y [Hy| ->]; [apply H1; exact Hy | rewrite H2 by lra; symmetry; exact E]).
  intros e He. destruct (Rtotal_order x a) as [L|[-> |L]].
  - destruct (C1 ltac:(lra) e He) as (al & Hal & P). exists (Rmin al (a - x)). split; [apply Rmin_glb_lt; lra|].
    intros y [Dy Hy]. cbn in Hy |- *. unfold R_dist in *. pose proof (Rmin_l al (a - x)). pose proof (Rmin_r al (a - x)).
    pose proof (Rle_abs (y - x)). rewrite !H1' by lra. apply P. split; [exact Dy|]. cbn. unfold R_dist. lra.
  - destruct (C1 ltac:(lra) e He) as (al & Hal & P1). destruct (C2 ltac:(lra) e He) as (be & Hbe & P2).
    exists (Rmin al be). split; [apply Rmin_glb_lt; lra|]. pose proof (Rmin_l al be). pose proof (Rmin_r al be).
    intros y [Dy Hy]. cbn in Hy |- *. unfold R_dist in *. destruct (Rlt_dec y a).
    + rewrite !H1' by lra. apply P1. split; [exact Dy|]. cbn. unfold R_dist. lra.
    + rewrite !H2 by lra. apply P2. split; [exact Dy|]. cbn. unfold R_dist. lra.
  - destruct (C2 ltac:(lra) e He) as (al & Hal & P). exists (Rmin al (x - a)). split; [apply Rmin_glb_lt; lra|].
    intros y [Dy Hy]. cbn in Hy |- *. unfold R_dist in *. pose proof (Rmin_l al (x - a)). pose proof (Rmin_r al (x - a)).
    assert (x - y <= Rabs (y - x)) by (rewrite Rabs_minus_sym; apply Rle_abs). rewrite !H2 by lra. apply P. split; [exact Dy|]. cbn. unfold R_dist. lra.
Qed.

Lemma rho_continuous p : 0 < p -> continuity_pt (rho_star D) p.
Proof.
  intros H. destruct (side_facts g l Hg Hl) as (G & Hr & Hp & Ha & He).
  assert (continuity_pt (fun x => x / pressure l) p) as C0.
  { apply continuity_pt_mult; [apply derivable_continuous_pt, derivable_pt_id | apply continuity_pt_const; intros ? ?; reflexivity]. }
  apply (continuity_glue (rho_star D) (rho_rarefaction D) (rho_shock D) (pressure l)).
  - intros y Hy. unfold rho_star. destruct (Rlt_dec y (pL D)) as [_|N]; [reflexivity | exfalso; apply N; exact Hy].
  - intros y Hy. unfold rho_star. destruct (Rlt_dec y (pL D)) as [N|_]; [exfalso; revert N; apply Rle_not_lt; exact Hy | reflexivity].
  - unfold rho_rarefaction, rho_shock, D, the_data. cbn [rhoL uL pL aL dgamma rhou_star]. cbv zeta.
    replace (pressure l / pressure l) with 1 by (field; lra). rewrite Rpower_base_1. field. lra.
  - intros _. unfold rho_rarefaction, D, the_data. cbn [rhoL uL pL aL dgamma rhou_star].
    apply continuity_pt_mult; [apply continuity_pt_const; intros ? ?; reflexivity|].
    apply (continuity_pt_comp (fun x => x / pressure l) (fun x => Rpower x (1 / gamma g))); [exact C0|].
    apply derivable_continuous_pt. eexists. apply derivable_pt_lim_power. apply Rdiv_lt_0_compat; lra.
  - intros Hp'. unfold rho_shock, D, the_data. cbn [rhoL uL pL aL dgamma rhou_star]. cbv zeta.
    apply continuity_pt_mult; [apply continuity_pt_const; intros ? ?; reflexivity|].
    assert (0 < (gamma g - 1) / (gamma g + 1)) as K by (apply Rdiv_lt_0_compat; lra). assert (0 < p / pressure l) by (apply Rdiv_lt_0_compat; lra).
    apply continuity_pt_div.
    + apply continuity_pt_plus; [apply continuity_pt_const; intros ? ?; reflexivity | exact C0].
    + apply continuity_pt_plus; [|apply continuity_pt_const; intros ? ?; reflexivity].
      apply continuity_pt_mult; [apply continuity_pt_const; intros ? ?; reflexivity | exact C0].
    + assert (0 < (gamma g - 1) / (gamma g + 1) * (p / pressure l)) by (apply Rmult_lt_0_compat; assumption). lra.
Qed.

Lemma continuity_ext_near (f h : R -> R) x e : 0 < e -> (forall y, x - e < y < x + e -> f y = h y) -> continuity_pt h x -> continuity_pt f x.
Proof.
  intros He E C eps Heps. destruct (C eps Heps) as (al & Hal & P). exists (Rmin al e). split; [apply Rmin_glb_lt; lra|].
  intros y [Dy Hy]. cbn in Hy |- *. unfold R_dist in *. pose proof (Rmin_l al e). pose proof (Rmin_r al e).
  pose proof (Rle_abs (y - x)). assert (x - y <= Rabs (y - x)) by (rewrite Rabs_minus_sym; apply Rle_abs).
  rewrite !E by lra. apply P. split; [exact Dy|]. cbn. unfold R_dist. lra.
Qed.

Lemma delta_continuous p : 0 < p -> continuity_pt (delta_rhou D) p.
Proof.
  intros H. apply (continuity_ext_near _ (fun x => rho_star D x * (velocity l d - 1 * phi g l x) - mstar) p p H).
  - intros y Hy. rewrite delta_flow, u_star_phi by lra. reflexivity.
  - apply continuity_pt_minus; [|apply continuity_pt_const; intros ? ?; reflexivity].
    apply continuity_pt_mult; [apply rho_continuous; exact H|].
    apply continuity_pt_minus; [apply continuity_pt_const; intros ? ?; reflexivity|].
    apply continuity_pt_mult; [apply continuity_pt_const; intros ? ?; reflexivity|].
    apply derivable_continuous_pt. eexists. apply (derivable_phi g l Hg Hl p H).
Qed.

Lemma flow_between a b : 0 < a -> a <= b -> delta_rhou D a * delta_rhou D b <= 0 -> exists p, a <= p <= b /\ delta_rhou D p = 0.
Proof.
  intros Ha Hab S.
  destruct (Req_dec (delta_rhou D a) 0) as [Za|Za]; [exists a; split; [lra|exact Za]|].
  destruct (Req_dec (delta_rhou D b) 0) as [Zb|Zb]; [exists b; split; [lra|exact Zb]|].
  assert (a <> b) as N by (intros ->; nra). assert (a < b) as L by lra.
  destruct (Rlt_dec (delta_rhou D a) 0) as [Na|Na].
  - assert (0 < delta_rhou D b) by nra.
    destruct (IVT_interv (delta_rhou D) a b) as (z & Hz & E); auto; [intros c Hc; apply delta_continuous; lra|]. exists z. split; assumption.
  - assert (delta_rhou D b < 0) by nra. assert (0 < delta_rhou D a) by lra.
    destruct (IVT_interv (fun x => - delta_rhou D x) a b) as (z & Hz & E); auto; try lra.
    + intros c Hc. apply continuity_pt_opp, delta_continuous. lra.
    + exists z. split; [exact Hz | lra].
Qed.
End Wave.

(** ** The bounds *)

Lemma find_lower_spec delta n : forall x y, 0 < x -> find_lower delta n x = Some y -> 0 < y < x /\ 0 <= delta y.
Proof.
  induction n as [|n IH]; intros x y Hx H; cbn [find_lower] in H; [discriminate|].
  destruct (Rlt_dec (delta (x * (1 / 2))) 0) as [L|L].
  - apply IH in H; [lra|lra].
  - injection H as <-. lra.
Qed.

Lemma find_upper_spec delta n : forall x y, 0 < x -> find_upper delta n x = Some y -> x < y <= x * 2 ^ n /\ delta y <= 0.
Proof.
  induction n as [|n IH]; intros x y Hx H; cbn [find_upper] in H; [discriminate|].
  assert (1 <= 2 ^ n) by (apply pow_R1_Rle; lra). cbn [pow].
  destruct (Rlt_dec 0 (delta (x * 2))) as [L|L].
  - apply IH in H; [|lra]. replace (x * (2 * 2 ^ n)) with (x * 2 * 2 ^ n) by ring. lra.
  - injection H as <-. split; [|lra]. split; [lra|]. rewrite <- Rmult_assoc. rewrite <- (Rmult_1_r (x * 2)) at 1. apply Rmult_le_compat_l; lra.
Qed.

Lemma find_lower_none delta n : forall x, 0 < x -> (forall y, 0 < y <= x / 2 -> delta y < 0) -> find_lower delta n x = None.
Proof.
  induction n as [|n IH]; intros x Hx H; cbn [find_lower]; [reflexivity|].
  destruct (Rlt_dec (delta (x * (1 / 2))) 0) as [L|L]; [|exfalso; apply L, H; lra].
  apply IH; [lra|]. intros y Hy. apply H. lra.
Qed.

Lemma find_upper_some delta n : forall x, 0 < x -> delta (x * 2 ^ (S n)) <= 0 -> exists y, find_upper delta (S n) x = Some y.
Proof.
  induction n as [|n IH]; intros x Hx H.
  - cbn [find_upper]. replace (2 ^ 1) with 2 in H by ring. destruct (Rlt_dec 0 (delta (x * 2))); [lra|]. eexists. reflexivity.
  - change (find_upper delta (S (S n)) x) with
      (if Rlt_dec 0 (delta (x * 2)) then find_upper delta (S n) (x * 2) else Some (x * 2)).
    destruct (Rlt_dec 0 (delta (x * 2))); [|eexists; reflexivity]. apply IH; [lra|].
    replace (x * 2 * 2 ^ S n) with (x * 2 ^ S (S n)) by (cbn [pow]; ring). exact H.
Qed.

Lemma bounds_spec delta p0 a b : 0 < p0 -> FindLowerAndUpperBounds delta p0 = Some (a, b) ->
  0 < a /\ a < b /\ delta a * delta b <= 0 /\ b - a <= 4095 * p0.
Proof.
  intros Hp H. unfold FindLowerAndUpperBounds in H. destruct (Rlt_dec (delta p0) 0) as [L|L].
  - destruct (find_lower delta 12 p0) as [y|] eqn:E; [|discriminate]. injection H as <- <-.
    apply find_lower_spec in E; [|exact Hp]. repeat split; try lra. nra.
  - destruct (find_upper delta 12 p0) as [y|] eqn:E; [|discriminate]. injection H as <- <-.
    apply find_upper_spec in E; [|exact Hp]. replace (p0 * 2 ^ 12) with (4096 * p0) in E by ring. repeat split; try lra. nra.
Qed.
