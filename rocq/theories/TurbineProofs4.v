(** Lemmas for C130, C132 and C133. *)
From Coq Require Import List Reals ZArith Bool Lia Lra Psatz Permutation.
From Verif Require Import GasModel GasSpec GasProofs NewtonModel NewtonSpec NewtonProofs NewtonProperties.
From Verif Require Import RiemannModel RiemannSpec RiemannProofs RiemannProofs2.
From Verif Require Import BoundaryModel TurbineModel TurbineSpec TurbineProofs2.
Import ListNotations.
Local Open Scope R_scope.

(** ** Powers *)

Lemma isentrope_power g k rho a p : 0 < rho -> 0 < a -> isentrope g (rho * Rpower a k) (p * Rpower a (g * k)) = isentrope g rho p.
Proof.
  intros Hr Ha. unfold isentrope. rewrite <- Rpower_mult_distr by (auto; apply Rpower_pos). rewrite Rpower_mult, (Rmult_comm k g).
  pose proof (Rpower_pos a (g * k)). pose proof (Rpower_pos rho g). field. split; lra.
Qed.

Lemma speed2_cross q d : speed2 q = speed q d * speed q d + cross q d.
Proof. unfold speed2, cross, squaredNorm. rewrite dot_self, map_map. ring. Qed.

Lemma speed2_prim g q d rho u p : (d < length (momentum q))%nat -> rho <> 0 -> speed2 (from_prim g rho u p q d) = u * u + cross q d.
Proof.
  intros Hd Hr. unfold speed2. rewrite prim_density.
  pose proof (prim_squared g q d Hd rho u p) as S. unfold squaredNorm in S. rewrite dot_self in S.
  assert (forall m, rho * rho * sum (map (fun m => m / rho * (m / rho)) m) = sum (map (fun x => x * x) m)) as A.
  { induction m as [|x m IH]; cbn; [ring|]. rewrite <- IH. field. exact Hr. }
  rewrite <- A in S. apply Rmult_eq_reg_l in S; [exact S|]. apply Rmult_integral_contrapositive. auto.
Qed.

Lemma speed2_velocity q : squaredNorm (velocities q) = speed2 q.
Proof. unfold squaredNorm, velocities, speed2. rewrite dot_self, map_map. reflexivity. Qed.

(** ** C130 *)

Lemma outflow_subsonic g pb q : perfect g -> admissible g q -> 0 < pb -> speed2 q <= speed_of_sound q * speed_of_sound q ->
  let r := OutflowState g pb q in
  pressure r = pb /\ same_velocity r q /\ speed_of_sound r = speed_of_sound q /\ admissible g r.
Proof.
  intros Hg Hq Hb Hs r. destruct (side_facts g q Hg Hq) as (G & Hr & Hp & Ha & He). unfold r, OutflowState. cbv zeta.
  rewrite speed2_velocity. destruct (Rle_dec _ _) as [_|N]; [|contradiction].
  set (c2 := speed_of_sound q * speed_of_sound q). assert (0 < c2) as Hc by (apply Rmult_lt_0_compat; exact Ha).
  assert (0 < gamma g * pb / c2) as Hn by (apply Rdiv_lt_0_compat; [apply Rmult_lt_0_compat; lra | exact Hc]).
  split; [reflexivity|]. split; [|split].
  - unfold CompleteFromPrim, velocities. cbn [p_density p_velocity p_pressure]. cbv zeta. split.
    + cbn [momentum]. rewrite vscale_length, map_length. reflexivity.
    + intros k. unfold speed at 1. cbn [momentum density]. unfold vscale. rewrite map_map.
      rewrite nth_scaled. field. lra.
  - cbn [CompleteFromPrim speed_of_sound p_pressure p_density].
    replace (gamma g * pb / (gamma g * pb / c2)) with c2 by (field; repeat split; lra). unfold c2. apply sqrt_square. lra.
  - split; [exact Hn|]. split; [exact Hb|]. apply from_prim_consistent; [exact Hg | exact Hn | cbn; lra].
Qed.

Lemma outflow_supersonic g pb q : speed_of_sound q * speed_of_sound q < speed2 q -> OutflowState g pb q = q.
Proof. intros H. unfold OutflowState. cbv zeta. rewrite speed2_velocity. destruct (Rle_dec _ _); [lra|reflexivity]. Qed.

(** the mixture *)
Definition mix_speed2 (q : mixture) : R := sum (map (fun m => m / y_density q * (m / y_density q)) (y_momentum q)).

Lemma nth_div l r k : nth k (map (fun m => m / r) l) 0 = nth k l 0 / r.
Proof. replace 0 with (0 / r) at 1 by (unfold Rdiv; ring). apply (map_nth (fun m => m / r)). Qed.
Lemma nth_scale_div l r s k : nth k (map (fun y => s * y) (map (fun m => m / r) l)) 0 = s * (nth k l 0 / r).
Proof.
  rewrite map_map. replace 0 with (s * (0 / r)) at 1 by (unfold Rdiv; ring). rewrite (map_nth (fun m => s * (m / r))). reflexivity.
Qed.

Lemma outflow_mixture eq pb q : 1 < mgamma eq -> 0 < y_density q -> 0 < y_sound q -> 0 < pb -> mix_speed2 q <= y_sound q * y_sound q ->
  let r := OutflowMixture eq pb q in
  y_pressure r = pb /\ y_sound r = y_sound q /\ 0 < y_density r /\
  same_fractions (y_density r) (y_momentum r) (y_density q) (y_momentum q) /\
  same_fractions (y_density r) (y_species r) (y_density q) (y_species q) /\
  same_fractions (y_density r) (y_scalars r) (y_density q) (y_scalars q) /\
  y_energy r = Msq eq * kinetic (y_density r) (map (fun m => m / y_density r) (y_momentum r)) + pb / (mgamma eq - 1).
Proof.
  intros G Hr Ha Hb Hs r. unfold r, OutflowMixture. cbv zeta.
  assert (squaredNorm (map (fun m => m / y_density q) (y_momentum q)) = mix_speed2 q) as ->
    by (unfold squaredNorm, mix_speed2; rewrite dot_self, map_map; reflexivity).
  destruct (Rle_dec _ _) as [_|N]; [|contradiction].
  set (c2 := y_sound q * y_sound q). assert (0 < c2) as Hc by (apply Rmult_lt_0_compat; exact Ha).
  assert (0 < mgamma eq * pb / c2) as Hn by (apply Rdiv_lt_0_compat; [apply Rmult_lt_0_compat; lra | exact Hc]).
  unfold MixFromPrim, MixPrimFromComplete.
  cbn [z_density z_velocity z_pressure z_species z_scalars y_pressure y_sound y_density y_momentum y_species y_scalars y_energy]. cbv zeta.
  split; [reflexivity|]. split.
  { replace (mgamma eq * pb / (mgamma eq * pb / c2)) with c2 by (field; repeat split; lra). unfold c2. apply sqrt_square. lra. }
  split; [exact Hn|].
  assert (forall l, same_fractions (mgamma eq * pb / c2) (map (fun y => mgamma eq * pb / c2 * y) (map (fun m => m / y_density q) l)) (y_density q) l) as F.
  { intros l. split; [rewrite !map_length; reflexivity|]. intros k. rewrite nth_scale_div. field. repeat split; lra. }
  split; [apply F|]. split; [apply F|]. split; [apply F|].
  rewrite kinetic_energy by lra. unfold mix_inv. field. lra.
Qed.

(** ** C132: the required mass flow *)

Lemma required_total g correlation d q : perfect g -> admissible g q -> 0 < Rspec g ->
  ComputeRequiredMassflow g correlation d q =
  correlation * total_pressure (gamma g) (density q) (speed q d * speed q d) (pressure q) /
  sqrt (total_temperature (gamma g) (Rspec g) (density q) (speed q d * speed q d) (pressure q)).
Proof.
  intros Hg Hq HR. destruct (side_facts g q Hg Hq) as (G & Hr & Hp & Ha & He).
  unfold ComputeRequiredMassflow, total_pressure, total_temperature, Temperature. cbv zeta. change (velocity q d) with (speed q d).
  assert (gamma g * pressure q / density q = speed_of_sound q * speed_of_sound q) as -> by (rewrite <- He; field; lra).
  set (u2 := speed q d * speed q d). set (c2 := speed_of_sound q * speed_of_sound q).
  assert (0 < c2) by (apply Rmult_lt_0_compat; exact Ha).
  replace (1 + 1 / 2 * (u2 / c2) * (gamma g - 1)) with (1 + (gamma g - 1) / 2 * (u2 / c2)) by (field; lra).
  replace (gamma g * (1 / (gamma g - 1))) with (gamma g / (gamma g - 1)) by (field; lra). reflexivity.
Qed.

Lemma total_positive g Rs rho u2 p : 1 < g -> 0 < Rs -> 0 < rho -> 0 <= u2 -> 0 < p ->
  0 < total_pressure g rho u2 p /\ 0 < total_temperature g Rs rho u2 p.
Proof.
  intros G HR Hr Hu Hp. unfold total_pressure, total_temperature.
  assert (0 < g * p / rho) by (apply Rdiv_lt_0_compat; [apply Rmult_lt_0_compat|]; lra).
  assert (0 <= (g - 1) / 2 * (u2 / (g * p / rho))).
  { apply Rmult_le_pos; [lra|]. apply Rmult_le_pos; [exact Hu|]. apply Rlt_le, Rinv_0_lt_compat. assumption. }
  split; apply Rmult_lt_0_compat; try lra; [apply Rpower_pos|].
  apply Rdiv_lt_0_compat; [exact Hp|]. apply Rmult_lt_0_compat; lra.
Qed.

(** the mass flow increases with the velocity *)
Lemma flow_increasing g Rs rho p u2 v2 : 1 < g -> 0 < Rs -> 0 < rho -> 0 < p -> 0 <= u2 < v2 ->
  total_pressure g rho u2 p / sqrt (total_temperature g Rs rho u2 p) < total_pressure g rho v2 p / sqrt (total_temperature g Rs rho v2 p).
Proof.
  intros G HR Hr Hp Hu. unfold total_pressure, total_temperature.
  assert (0 < g * p / rho) as Hc by (apply Rdiv_lt_0_compat; [apply Rmult_lt_0_compat|]; lra). set (c2 := g * p / rho) in *.
  assert (forall w, 0 <= w -> 1 <= 1 + (g - 1) / 2 * (w / c2)) as B.
  { intros w Hw. assert (0 <= (g - 1) / 2 * (w / c2)); [|lra].
    apply Rmult_le_pos; [lra|]. apply Rmult_le_pos; [exact Hw|]. apply Rlt_le, Rinv_0_lt_compat. assumption. }
  assert (1 + (g - 1) / 2 * (u2 / c2) < 1 + (g - 1) / 2 * (v2 / c2)) as L.
  { apply Rplus_lt_compat_l, Rmult_lt_compat_l; [lra|]. apply Rmult_lt_compat_r; [apply Rinv_0_lt_compat; exact Hc | lra]. }
  pose proof (B u2 ltac:(lra)) as B1. pose proof (B v2 ltac:(lra)) as B2.
  set (a := 1 + (g - 1) / 2 * (u2 / c2)) in *. set (b := 1 + (g - 1) / 2 * (v2 / c2)) in *. clearbody a b.
  assert (0 < p / (rho * Rs)) as HT by (apply Rdiv_lt_0_compat; [exact Hp | apply Rmult_lt_0_compat; lra]).
  assert (forall x, 0 < x -> p * Rpower x (g / (g - 1)) / sqrt (p / (rho * Rs) * x) = p / sqrt (p / (rho * Rs)) * Rpower x (g / (g - 1) - / 2)) as E.
  { intros x Hx. rewrite sqrt_mult by lra. rewrite <- (Rpower_sqrt x Hx).
    replace (g / (g - 1) - / 2) with (g / (g - 1) + - / 2) by ring. rewrite Rpower_plus, Rpower_Ropp.
    pose proof (sqrt_lt_R0 _ HT). pose proof (Rpower_pos x (/ 2)). field. split; lra. }
  rewrite !E by lra. apply Rmult_lt_compat_l; [apply Rdiv_lt_0_compat; [exact Hp | apply sqrt_lt_R0; exact HT]|].
  apply Rlt_Rpower_l; [|lra].
  assert (1 < g / (g - 1)); [|lra]. apply (Rmult_lt_reg_r (g - 1)); [lra|]. unfold Rdiv. rewrite Rmult_assoc, Rinv_l; lra.
Qed.

(** the average *)
Lemma average_process g correlation d n cells : forall a,
  fold_left (fun average q => average + ComputeRequiredMassflow g correlation d q / n) cells a =
  a + sum (map (fun q => ComputeRequiredMassflow g correlation d q / n) cells).
Proof. induction cells as [|q cells IH]; intros a; cbn; [ring|]. rewrite IH. ring. Qed.

Lemma sum_app a b : sum (a ++ b) = sum a + sum b.
Proof. induction a as [|x a IH]; cbn; [ring|]. rewrite IH. ring. Qed.

Lemma sum_permutation a b : Permutation a b -> sum a = sum b.
Proof. induction 1; cbn; lra. Qed.

Lemma average_concat g correlation d processes n :
  AverageRequiredMassflow g correlation d processes n = sum (map (fun q => ComputeRequiredMassflow g correlation d q / n) (concat processes)).
Proof.
  unfold AverageRequiredMassflow. induction processes as [|cells ps IH]; cbn; [reflexivity|].
  rewrite IH, average_process, map_app, sum_app. ring.
Qed.

Lemma sum_divided {A} (f : A -> R) n l : sum (map (fun q => f q / n) l) = sum (map f l) / n.
Proof. induction l as [|x l IH]; cbn; [unfold Rdiv; ring|]. rewrite IH. unfold Rdiv. ring. Qed.

(** ** C132: Jirasek *)

Section Jirasek.
Variables (g : gas) (l : Complete) (d : nat) (m area : R).
Hypothesis Hg : perfect g.
Hypothesis Hl : admissible g l.
Hypothesis Hd : (d < length (momentum l))%nat.
Let ga := gamma g.
Definition second : nat := Nat.modulo (d + 1) (length (momentum l)).
Definition planar (u : R) : R := u * u + speed l second * speed l second.
Definition a0 : R := 1 + planar (speed l d) / (speed_of_sound l * speed_of_sound l) * (1 / 2 * (ga - 1)).
Definition k0 : R := 1 / (ga - 1).
Definition rest_density : R := density l * Rpower a0 k0.
Definition rest_pressure : R := pressure l * Rpower a0 (ga * k0).
Definition c02 : R := speed_of_sound l * speed_of_sound l + 1 / 2 * (ga - 1) * planar (speed l d).
Definition al : R := 1 / 2 * (ga - 1) / c02.
Definition be : R := m / (area * rest_density).
Definition an (u : R) : R := 1 - (ga - 1) / (ga + 1) * Rmin (planar u / (2 * c02 / (ga + 1))) 1.
Definition the_f := jirasek_f al be k0 (speed l second * speed l second).
Definition the_Df := jirasek_Df al k0 (speed l second * speed l second).
Definition expanded (u : R) : Complete :=
  from_prim g (rest_density * Rpower (an u) k0) u (rest_pressure * Rpower (an u) (ga * k0)) l d.

Lemma jirasek_form : Jirasek g l m area d =
  match NewtonIteration the_f the_Df (speed l d) newton_tolerance 5000 with
  | Thrown _ => Terminates
  | Returned u => Ghost (expanded u)
  end.
Proof.
  unfold Jirasek, PrimFromComplete. cbn [p_velocity p_density p_pressure]. cbv zeta. rewrite !nth_velocity. fold second.
  fold ga. fold (planar (speed l d)). fold k0 a0. fold rest_density. fold c02 al be. fold the_f the_Df.
  destruct (NewtonIteration the_f the_Df (speed l d) newton_tolerance 5000) as [u|u]; [|reflexivity].
  fold (planar u). fold (an u). fold rest_pressure. rewrite set_prim. reflexivity.
Qed.

Lemma j_facts : 1 < ga /\ 0 < density l /\ 0 < pressure l /\ 0 < speed_of_sound l /\
  density l * (speed_of_sound l * speed_of_sound l) = ga * pressure l /\ (forall u, 0 <= planar u) /\ 1 <= a0 /\ 0 < c02 /\
  c02 = speed_of_sound l * speed_of_sound l * a0 /\ 0 < k0 /\ 0 < rest_density /\ 0 < rest_pressure /\ 0 < al.
Proof.
  destruct (side_facts g l Hg Hl) as (G & Hr & Hp & Ha & He). fold ga in G, He.
  assert (forall u, 0 <= planar u) as P by (intros u; unfold planar; nra).
  assert (0 < speed_of_sound l * speed_of_sound l) as C by (apply Rmult_lt_0_compat; exact Ha).
  assert (1 <= a0) as A.
  { unfold a0. assert (0 <= planar (speed l d) / (speed_of_sound l * speed_of_sound l) * (1 / 2 * (ga - 1))); [|lra].
    apply Rmult_le_pos; [|lra]. apply Rmult_le_pos; [apply P|]. apply Rlt_le, Rinv_0_lt_compat. exact C. }
  assert (c02 = speed_of_sound l * speed_of_sound l * a0) as E by (unfold c02, a0; field; lra).
  assert (0 < c02) as C0 by (rewrite E; apply Rmult_lt_0_compat; lra).
  assert (0 < k0) by (apply Rdiv_lt_0_compat; lra).
  assert (0 < rest_density) by (apply Rmult_lt_0_compat; [lra | apply Rpower_pos]).
  assert (0 < rest_pressure) by (apply Rmult_lt_0_compat; [lra | apply Rpower_pos]).
  assert (0 < al) by (apply Rdiv_lt_0_compat; lra).
  split; [exact G|]. split; [exact Hr|]. split; [exact Hp|]. split; [exact Ha|]. split; [exact He|]. split; [exact P|]. split; [exact A|].
  split; [exact C0|]. split; [exact E|]. auto.
Qed.

Lemma an_positive u : 0 < an u.
Proof.
  destruct j_facts as (G & _). unfold an. pose proof (Rmin_r (planar u / (2 * c02 / (ga + 1))) 1) as M.
  assert (0 < (ga - 1) / (ga + 1)) as K by (apply Rdiv_lt_0_compat; lra).
  assert ((ga - 1) / (ga + 1) < 1) as K1 by (apply (Rmult_lt_reg_r (ga + 1)); [lra|]; unfold Rdiv; rewrite Rmult_assoc, Rinv_l; lra).
  assert ((ga - 1) / (ga + 1) * Rmin (planar u / (2 * c02 / (ga + 1))) 1 <= (ga - 1) / (ga + 1) * 1) by (apply Rmult_le_compat_l; lra). lra.
Qed.

Lemma expanded_facts u :
  let q := expanded u in
  admissible g q /\ length (momentum q) = length (momentum l) /\ speed q d = u /\ (forall k, k <> d -> speed q k = speed l k) /\
  isentrope ga (density q) (pressure q) = isentrope ga (density l) (pressure l) /\
  nth d (momentum q) 0 = rest_density * (u * Rpower (an u) k0) /\
  speed_of_sound q * speed_of_sound q = c02 * an u /\ speed2 q = u * u + cross l d /\
  pressure q / density q = pressure l / density l * a0 * an u.
Proof.
  intros q. destruct j_facts as (G & Hr & Hp & Ha & He & P & A0 & C0 & E0 & K & RD & RP & AL). pose proof (an_positive u) as AN.
  assert (0 < rest_density * Rpower (an u) k0) as D1 by (apply Rmult_lt_0_compat; [exact RD | apply Rpower_pos]).
  assert (0 < rest_pressure * Rpower (an u) (ga * k0)) as P1 by (apply Rmult_lt_0_compat; [exact RP | apply Rpower_pos]).
  assert (admissible g q) as Aq by (apply prim_admissible; auto).
  assert (pressure q / density q = pressure l / density l * a0 * an u) as PD.
  { unfold q, expanded. rewrite prim_pressure, prim_density. unfold rest_pressure, rest_density.
    assert (forall x, 0 < x -> Rpower x (ga * k0) = Rpower x k0 * x) as PW.
    { intros x Hx. replace (ga * k0) with (k0 + 1) by (unfold k0; field; lra). rewrite Rpower_plus, Rpower_1 by exact Hx. reflexivity. }
    rewrite !PW by lra. pose proof (Rpower_pos a0 k0). pose proof (Rpower_pos (an u) k0). field. repeat split; lra. }
  split; [exact Aq|]. split; [apply prim_length|]. split; [apply prim_speed; auto; lra|]. split; [|split; [|split; [|split; [|split; [|exact PD]]]]].
  - intros k Hk. unfold q, expanded, speed at 1. rewrite prim_momentum, prim_density by exact Hd.
    destruct (Nat.eqb k d) eqn:E; [apply Nat.eqb_eq in E; lia|]. set (r := rest_density * Rpower (an u) k0) in *. clearbody r. field. lra.
  - unfold q, expanded. rewrite prim_density, prim_pressure. rewrite isentrope_power by auto. unfold rest_density, rest_pressure.
    apply isentrope_power; lra.
  - unfold q, expanded. rewrite prim_momentum, Nat.eqb_refl by exact Hd. ring.
  - destruct Aq as (Q1 & Q2 & _ & _ & Q3). fold ga in Q3.
    assert (speed_of_sound q * speed_of_sound q = ga * (pressure q / density q)) as -> by (apply (Rmult_eq_reg_l (density q)); [rewrite Q3; field|]; lra).
    rewrite PD, E0. replace (ga * (pressure l / density l * a0 * an u)) with (ga * pressure l * / density l * a0 * an u) by (unfold Rdiv; ring).
    rewrite <- He. field. lra.
  - apply speed2_prim; [exact Hd | lra].
Qed.

(** subcritical *)
Lemma an_subcritical u : planar u <= 2 * c02 / (ga + 1) -> an u = 1 - al * planar u.
Proof.
  intros H. destruct j_facts as (G & Hr & Hp & Ha & He & P & A0 & C0 & E0 & K & RD & RP & AL).
  assert (0 < 2 * c02 / (ga + 1)) as C by (apply Rdiv_lt_0_compat; lra).
  unfold an. rewrite Rmin_left.
  - unfold al. field. split; lra.
  - apply (Rmult_le_reg_r (2 * c02 / (ga + 1))); [exact C|]. unfold Rdiv at 1. rewrite Rmult_assoc, Rinv_l by lra. lra.
Qed.

Lemma an_supercritical u : 2 * c02 / (ga + 1) <= planar u -> an u = 2 / (ga + 1).
Proof.
  intros H. destruct j_facts as (G & Hr & Hp & Ha & He & P & A0 & C0 & E0 & K & RD & RP & AL).
  assert (0 < 2 * c02 / (ga + 1)) as C by (apply Rdiv_lt_0_compat; lra).
  unfold an. rewrite Rmin_right.
  - field. lra.
  - apply (Rmult_le_reg_r (2 * c02 / (ga + 1))); [exact C|]. unfold Rdiv at 2. rewrite Rmult_assoc, Rinv_l by lra. lra.
Qed.

Lemma subcritical_iff u : planar u <= speed_of_sound (expanded u) * speed_of_sound (expanded u) <-> planar u <= 2 * c02 / (ga + 1).
Proof.
  destruct j_facts as (G & Hr & Hp & Ha & He & P & A0 & C0 & E0 & K & RD & RP & AL).
  destruct (expanded_facts u) as (_ & _ & _ & _ & _ & _ & S & _). rewrite S.
  assert (c02 * 2 / (ga + 1) = 2 * c02 / (ga + 1)) as E1 by (unfold Rdiv; ring).
  destruct (Rle_dec (planar u) (2 * c02 / (ga + 1))) as [L|L].
  - rewrite (an_subcritical u L). split; [intros _; exact L|]. intros _. unfold al.
    replace (c02 * (1 - 1 / 2 * (ga - 1) / c02 * planar u)) with (c02 - 1 / 2 * (ga - 1) * planar u) by (field; lra).
    assert (planar u * (ga + 1) <= 2 * c02); [|lra].
    apply (Rmult_le_compat_r (ga + 1)) in L; [|lra]. unfold Rdiv in L. rewrite Rmult_assoc, Rinv_l in L; lra.
  - rewrite an_supercritical by lra. replace (c02 * (2 / (ga + 1))) with (2 * c02 / (ga + 1)) by (unfold Rdiv; ring). split; intros; lra.
Qed.

Lemma expanded_enthalpy u : planar u <= 2 * c02 / (ga + 1) ->
  let q := expanded u in
  total_enthalpy ga (density q) (speed2 q) (pressure q) = total_enthalpy ga (density l) (speed2 l) (pressure l).
Proof.
  intros H q. destruct j_facts as (G & Hr & Hp & Ha & He & P & A0 & C0 & E0 & K & RD & RP & AL).
  destruct (expanded_facts u) as (_ & _ & _ & _ & _ & _ & _ & S & PD). fold q in S, PD. unfold total_enthalpy.
  rewrite S, PD, (an_subcritical u H), (speed2_cross l d).
  assert (ga / (ga - 1) * (pressure l / density l * a0 * (1 - al * planar u)) = / (ga - 1) * (c02 * (1 - al * planar u))) as ->.
  { rewrite E0. replace (ga / (ga - 1) * (pressure l / density l * a0 * (1 - al * planar u)))
      with (/ (ga - 1) * (ga * pressure l / density l * a0 * (1 - al * planar u))) by (unfold Rdiv; ring). rewrite <- He. field. lra. }
  assert (ga / (ga - 1) * (pressure l / density l) = / (ga - 1) * (speed_of_sound l * speed_of_sound l)) as ->.
  { replace (ga / (ga - 1) * (pressure l / density l)) with (/ (ga - 1) * (ga * pressure l / density l)) by (unfold Rdiv; ring). rewrite <- He. field. lra. }
  unfold al. replace (c02 * (1 - 1 / 2 * (ga - 1) / c02 * planar u)) with (c02 - 1 / 2 * (ga - 1) * planar u) by (field; lra).
  unfold c02, planar. field. lra.
Qed.

Lemma the_f_value u : planar u <= 2 * c02 / (ga + 1) -> the_f u = Fin (u * Rpower (an u) k0 - be).
Proof.
  intros H. unfold the_f, jirasek_f. pose proof (an_positive u) as AN. rewrite (an_subcritical u H) in AN |- *.
  fold (planar u). unfold dpow. destruct (Rlt_dec 0 (1 - al * planar u)); [|contradiction]. cbn. reflexivity.
Qed.

Lemma jirasek_flow u : 0 < area -> planar u <= 2 * c02 / (ga + 1) -> forall v, the_f u = Fin v ->
  area * nth d (momentum (expanded u)) 0 = m + area * rest_density * v.
Proof.
  intros Har H v E. destruct j_facts as (G & Hr & Hp & Ha & He & P & A0 & C0 & E0 & K & RD & RP & AL).
  destruct (expanded_facts u) as (_ & _ & _ & _ & _ & N & _). rewrite N. rewrite the_f_value in E by exact H. injection E as <-.
  unfold be. field. split; lra.
Qed.

End Jirasek.

Lemma newton_upper f Df x0 tol x v : NewtonIteration f Df x0 tol 5000 = Returned x -> 0 < tol -> f x = Fin v -> v <= tol.
Proof.
  intros E Ht F. destruct (C38_returned_partial f Df x0 tol 5000 x ltac:(lia) E) as [(w & H & L) | [H | [H | (w & H & L)]]];
    rewrite F in H; try discriminate; injection H as <-; lra.
Qed.

(** a start value which already solves the equation is returned *)
Lemma newton_start f Df x0 tol v : f x0 = Fin v -> - tol <= v <= tol -> NewtonIteration f Df x0 tol 5000 = Returned x0.
Proof.
  intros H L. unfold NewtonIteration.
  assert (newton_loop f Df tol (Z.to_nat 5000) x0 (f x0) = (x0, f x0, Z.to_nat 5000)) as E.
  { assert (exists k, Z.to_nat 5000 = S k) as [k Ek] by (exists (Z.to_nat 4999); lia). rewrite Ek. cbn [newton_loop].
    rewrite H. cbn [abs_gt]. destruct (Rlt_dec tol (Rabs v)) as [N|_]; [|reflexivity].
    exfalso. revert N. apply Rle_not_lt. apply Rabs_le. lra. }
  rewrite E. assert (Nat.eqb (Z.to_nat 5000) 0 = false) as -> by (apply Nat.eqb_neq; lia). rewrite andb_false_r. reflexivity.
Qed.

(** a function which is never greater than the tolerance does not lead to an exception *)
Lemma newton_never_throws f Df x0 tol : (forall x, f x = NaN \/ f x = NInf \/ exists v, f x = Fin v /\ v <= tol) ->
  exists x, NewtonIteration f Df x0 tol 5000 = Returned x.
Proof.
  intros H. unfold NewtonIteration. 
  assert (forall n x, exists x' t, newton_loop f Df tol n x (f x) = (x', f x', t)) as A.
  { induction n as [|n IH]; intros x; cbn [newton_loop]; [eauto|]. destruct (abs_gt (f x) tol); [apply IH | eauto]. }
  destruct (A (Z.to_nat 5000) x0) as (x' & t & ->).
  assert (gt (f x') tol = false) as ->.
  { destruct (H x') as [-> | [-> | (v & -> & L)]]; cbn; try reflexivity. destruct (Rlt_dec tol v); [lra|reflexivity]. }
  rewrite andb_false_r. eauto.
Qed.

(** a start value from which the iteration does not get away *)
Lemma newton_stuck f Df x0 tol v : f x0 = Fin v -> 0 <= tol -> tol < v -> next_x x0 (next_value x0 (f x0) (Df x0)) = x0 ->
  NewtonIteration f Df x0 tol 5000 = Thrown x0.
Proof.
  intros H Ht L N. unfold NewtonIteration.
  assert (forall n, newton_loop f Df tol n x0 (f x0) = (x0, f x0, O)) as A.
  { induction n as [|n IH]; cbn [newton_loop]; [reflexivity|].
    assert (abs_gt (f x0) tol = true) as ->.
    { rewrite H. cbn. destruct (Rlt_dec tol (Rabs v)) as [_|C]; [reflexivity|]. exfalso. apply C. rewrite Rabs_right; lra. }
    cbv zeta. rewrite N. exact IH. }
  rewrite A. rewrite H. cbn [gt]. destruct (Rlt_dec tol v); [reflexivity|contradiction].
Qed.
