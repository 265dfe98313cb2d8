(** C95: the source term of diffusion. *)
From Coq Require Import List ZArith Reals Bool Lra Lia.
From Verif Require Import DiffusionModel DiffusionSpec DiffusionProofs DiffusionProofs2.
Local Open Scope R_scope.

(** a boundary condition changes only cells outside the domain *)
Definition fills_outside (bc : (Z -> cell) -> Z -> cell) (n : Z) : Prop := forall f i, (0 <= i < n)%Z -> bc f i = f i.
(** periodic boundary condition *)
Definition periodic (bc : (Z -> cell) -> Z -> cell) (n : Z) : Prop := forall f, bc f (-1)%Z = f (n - 1)%Z /\ bc f n = f 0%Z.
Definition periodic_state (q : Z -> cell) (n : Z) : Prop := q (-1)%Z = q (n - 1)%Z /\ q n = q 0%Z.
(** the state at the half time step as the boundary condition leaves it *)
Definition half_state (tm : term) (bc : (Z -> cell) -> Z -> cell) (dx dt : R) (q : Z -> cell) : Z -> cell :=
  bc (UpdateConservatively q (ComputeDiffusionFluxes tm (1 / dx) q) (1 / 2 * dt) dx).

(** periodic extension, for the examples *)
Definition wrap (n : Z) (f : Z -> cell) (i : Z) : cell := f (i mod n)%Z.
Lemma wrap_fills : forall n, fills_outside (wrap n) n.
Proof. intros n f i Hi. unfold wrap. rewrite Z.mod_small by lia. reflexivity. Qed.
Lemma wrap_periodic : forall n, (0 < n)%Z -> periodic (wrap n) n.
Proof.
  intros n Hn f. unfold wrap. split.
  - f_equal. replace (-1)%Z with (n - 1 + (-1) * n)%Z by ring. rewrite Z.mod_add by lia. apply Z.mod_small. lia.
  - f_equal. apply Z.mod_same. lia.
Qed.

(** Diffusion never changes the density or the passive scalars of a cell. *)
Theorem C95_density_kept : forall tm bc n dx dt q i s, 0 < dx -> fills_outside bc n -> (0 <= i < n)%Z ->
  rho (AdvanceLevel tm bc n dx dt q i) = rho (q i) /\ passive (AdvanceLevel tm bc n dx dt q i) s = passive (q i) s.
Proof.
  intros tm bc n dx dt q i s Hdx Hbc Hi. rewrite (advance_inner tm bc n dx dt q Hbc i Hi). split; [apply update_rho | apply update_passive].
Qed.
Print Assumptions C95_density_kept.

(** Momentum, energy and species are conserved: their totals change by what passes the two ends of the domain, which is the friction, the work of
    the friction plus the conducted heat, and the diffusion of the species between the states next to the ends at the half time step. *)
Theorem C95_conservation : forall o g bc (n : nat) dx dt q, 0 < dx -> fills_outside bc (Z.of_nat n) ->
  let tm := construct g o in
  let q' := AdvanceLevel tm bc (Z.of_nat n) dx dt q in
  let h := half_state tm bc dx dt q in
  let mu := mul o / reynolds o in
  let friction i := fick (4 / 3 * mu) dx (vel (h (i - 1)%Z)) (vel (h i)) in
  (forall i, (-1 <= i <= Z.of_nat n)%Z -> rho (h i) <> 0) ->
  total (fun i => mom (q' i)) n = total (fun i => mom (q i)) n + dt / dx * (friction 0%Z - friction (Z.of_nat n)) /\
  (let heat i := (vel (h (i - 1)%Z) + vel (h i)) / 2 * friction i + fick (mu / prandtl o) dx (enth g (h (i - 1)%Z)) (enth g (h i)) in
   total (fun i => energy (q' i)) n = total (fun i => energy (q i)) n + dt / dx * (heat 0%Z - heat (Z.of_nat n))) /\
  (forall s, let spread i := fick (mu / schmidt o) dx (frac s (h (i - 1)%Z)) (frac s (h i)) in
   total (fun i => species (q' i) s) n = total (fun i => species (q i) s) n + dt / dx * (spread 0%Z - spread (Z.of_nat n))).
Proof.
  intros o g bc n dx dt q Hdx Hbc tm q' h mu friction Hh.
  assert (K1 : four_three_mu_effective (constants_ tm) = 4 / 3 * mu) by (unfold tm, construct, Constants, mu, Rdiv; cbn; ring).
  assert (K2 : mu_Pr_effective (constants_ tm) = mu / prandtl o) by (unfold tm, construct, Constants, mu, Rdiv; cbn; ring).
  assert (K3 : mu_Sc_effective (constants_ tm) = mu / schmidt o) by (unfold tm, construct, Constants, mu, Rdiv; cbn; ring).
  assert (A : forall i, (0 <= i < Z.of_nat n)%Z -> q' i = UpdateConservatively q (ComputeDiffusionFluxes tm (1 / dx) h) dt dx i)
    by (intros i Hi; apply (advance_inner tm bc (Z.of_nat n) dx dt q Hbc i Hi)).
  assert (T : forall (c : cell -> R) (F : Z -> R),
     (forall i, (0 <= i < Z.of_nat n)%Z -> c (q' i) = c (q i) + dt / dx * (F i - F (i + 1)%Z)) ->
     total (fun i => c (q' i)) n = total (fun i => c (q i)) n + dt / dx * (F 0%Z - F (Z.of_nat n))).
  { intros c F H. rewrite (total_ext _ _ n H), total_plus, total_mult, total_telescope. reflexivity. }
  split; [|split].
  - apply (T mom friction). intros i Hi. rewrite A by exact Hi. unfold UpdateConservatively, ComputeDiffusionFluxes. cbn [mom].
    rewrite !flux_mom by lra. rewrite K1. reflexivity.
  - intro heat. apply (T energy heat). intros i Hi. rewrite A by exact Hi. unfold UpdateConservatively, ComputeDiffusionFluxes. cbn [energy].
    rewrite !flux_energy by (try lra; apply Hh; lia). rewrite K1, K2. reflexivity.
  - intros s spread. apply (T (fun c => species c s) spread). intros i Hi. rewrite A by exact Hi.
    unfold UpdateConservatively, ComputeDiffusionFluxes. cbn [species]. rewrite !flux_species by lra. rewrite K3. reflexivity.
Qed.
Print Assumptions C95_conservation.

(** On a periodic domain the totals are constant. *)
Theorem C95_periodic_conservation : forall tm bc (n : nat) dx dt q, 0 < dx -> (0 < n)%nat ->
  fills_outside bc (Z.of_nat n) -> periodic bc (Z.of_nat n) ->
  let q' := AdvanceLevel tm bc (Z.of_nat n) dx dt q in
  total (fun i => mom (q' i)) n = total (fun i => mom (q i)) n /\
  total (fun i => energy (q' i)) n = total (fun i => energy (q i)) n /\
  (forall s, total (fun i => species (q' i) s) n = total (fun i => species (q i) s) n).
Proof.
  intros tm bc n dx dt q Hdx Hn Hbc Hper q'.
  set (h := half_state tm bc dx dt q).
  assert (A : forall i, (0 <= i < Z.of_nat n)%Z -> q' i = UpdateConservatively q (ComputeDiffusionFluxes tm (1 / dx) h) dt dx i)
    by (intros i Hi; apply (advance_inner tm bc (Z.of_nat n) dx dt q Hbc i Hi)).
  assert (P : ComputeDiffusionFluxes tm (1 / dx) h 0%Z = ComputeDiffusionFluxes tm (1 / dx) h (Z.of_nat n)).
  { unfold ComputeDiffusionFluxes, h, half_state. destruct (Hper (UpdateConservatively q (ComputeDiffusionFluxes tm (1 / dx) q) (1 / 2 * dt) dx)) as [P1 P2].
    rewrite P2. change (0 - 1)%Z with (-1)%Z. rewrite P1. rewrite (Hbc _ (Z.of_nat n - 1)%Z) by lia. rewrite (Hbc _ 0%Z) by lia. reflexivity. }
  assert (T : forall (c : cell -> R),
     (forall i, (0 <= i < Z.of_nat n)%Z -> c (q' i) = c (q i) + dt / dx * (c (ComputeDiffusionFluxes tm (1 / dx) h i) - c (ComputeDiffusionFluxes tm (1 / dx) h (i + 1)%Z))) ->
     total (fun i => c (q' i)) n = total (fun i => c (q i)) n).
  { intros c H. rewrite (total_ext _ _ n H), total_plus, total_mult.
    rewrite (total_telescope (fun i => c (ComputeDiffusionFluxes tm (1 / dx) h i)) n). rewrite P. ring. }
  split; [|split]; [apply (T mom) | apply (T energy) | intro s; apply (T (fun c => species c s))]; intros i Hi; rewrite A by exact Hi; reflexivity.
Qed.
Print Assumptions C95_periodic_conservation.

(** If the time step obeys dt <= dx^2 rho / (2 k) in every cell, with k = 4/3 mu/Re for the velocity and k = mu/(Re Sc) for the mass fractions,
    velocities and mass fractions stay in the range they had before (with boundary conditions that fix or copy values). *)
Theorem C95_maximum_principle : forall o g bc n dx dt q, 0 < dx -> 0 <= dt -> fills_outside bc n ->
  0 < mul o -> 0 < reynolds o -> 0 < schmidt o ->
  (forall i, (0 <= i < n)%Z -> 0 < rho (q i)) ->
  let tm := construct g o in
  let q' := AdvanceLevel tm bc n dx dt q in
  let h := half_state tm bc dx dt q in
  let mu := mul o / reynolds o in
  (forall lo hi,
     (forall i, (0 <= i < n)%Z -> dt <= dx * dx * rho (q i) / (2 * (4 / 3 * mu))) ->
     (forall i, (0 <= i < n)%Z -> within lo hi (vel (q i))) ->
     ghost_value lo hi n (fun i => vel (q i)) (fun i => vel (h i)) (-1) -> ghost_value lo hi n (fun i => vel (q i)) (fun i => vel (h i)) n ->
     forall i, (0 <= i < n)%Z -> within lo hi (vel (q' i))) /\
  (forall s lo hi,
     (forall i, (0 <= i < n)%Z -> dt <= dx * dx * rho (q i) / (2 * (mu / schmidt o))) ->
     (forall i, (0 <= i < n)%Z -> within lo hi (frac s (q i))) ->
     ghost_value lo hi n (fun i => frac s (q i)) (fun i => frac s (h i)) (-1) -> ghost_value lo hi n (fun i => frac s (q i)) (fun i => frac s (h i)) n ->
     forall i, (0 <= i < n)%Z -> within lo hi (frac s (q' i))).
Proof.
  intros o g bc n dx dt q Hdx Hdt Hbc Hm Hre Hsc Hr tm q' h mu.
  assert (Hmu : 0 < mu) by (unfold mu; apply Rdiv_lt_0_compat; assumption).
  assert (K1 : four_three_mu_effective (constants_ tm) = 4 / 3 * mu) by (unfold tm, construct, Constants, mu, Rdiv; cbn; ring).
  assert (K3 : mu_Sc_effective (constants_ tm) = mu / schmidt o) by (unfold tm, construct, Constants, mu, Rdiv; cbn; ring).
  assert (B : forall k r, 0 < k -> 0 < r -> dt <= dx * dx * r / (2 * k) -> 0 <= dt * k / (dx * dx * r) <= 1 / 2).
  { intros k r Hk Hr0 H. assert (D : 0 < dx * dx * r) by (repeat apply Rmult_lt_0_compat; assumption). split.
    - apply Rmult_le_pos; [apply Rmult_le_pos; lra | left; apply Rinv_0_lt_compat; exact D].
    - apply Rmult_le_reg_r with (dx * dx * r); [exact D|]. replace (dt * k / (dx * dx * r) * (dx * dx * r)) with (dt * k) by (field; split; lra).
      apply Rmult_le_compat_r with (r := k) in H; [|lra]. replace (dx * dx * r / (2 * k) * k) with (1 / 2 * (dx * dx * r)) in H by (field; lra). lra. }
  assert (Hsig : 0 < mu / schmidt o) by (apply Rdiv_lt_0_compat; assumption).
  split.
  - intros lo hi C X G1 G2 i Hi. unfold q'. rewrite (advance_inner tm bc n dx dt q Hbc i Hi).
    rewrite update_vel by (try exact Hdx; apply Rgt_not_eq; apply Hr; exact Hi).
    refine (maximum_principle n (fun j => dt * four_three_mu_effective (constants_ tm) / (dx * dx * rho (q j))) (fun j => vel (q j)) (fun j => vel (h j)) _ _ lo hi X G1 G2 i Hi).
    + intros j Hj. rewrite K1. apply B; [lra | apply Hr; exact Hj | apply C; exact Hj].
    + intros j Hj. unfold h, half_state. rewrite Hbc by exact Hj. rewrite update_vel by (try exact Hdx; apply Rgt_not_eq; apply Hr; exact Hj).
      generalize (Hr j Hj); intro RJ. field. split; lra.
  - intros s lo hi C X G1 G2 i Hi. unfold q'. rewrite (advance_inner tm bc n dx dt q Hbc i Hi).
    rewrite update_frac by (try exact Hdx; apply Rgt_not_eq; apply Hr; exact Hi).
    refine (maximum_principle n (fun j => dt * mu_Sc_effective (constants_ tm) / (dx * dx * rho (q j))) (fun j => frac s (q j)) (fun j => frac s (h j)) _ _ lo hi X G1 G2 i Hi).
    + intros j Hj. rewrite K3. apply B; [exact Hsig | apply Hr; exact Hj | apply C; exact Hj].
    + intros j Hj. unfold h, half_state. rewrite Hbc by exact Hj. rewrite update_frac by (try exact Hdx; apply Rgt_not_eq; apply Hr; exact Hj).
      generalize (Hr j Hj); intro RJ. field. split; lra.
Qed.
Print Assumptions C95_maximum_principle.

(** The same bound on a periodic domain: friction does not increase the kinetic energy. *)
Theorem C95_kinetic_energy : forall o g bc (n : nat) dx dt q, 0 < dx -> 0 <= dt -> (0 < n)%nat -> 0 < mul o -> 0 < reynolds o ->
  fills_outside bc (Z.of_nat n) -> periodic bc (Z.of_nat n) -> periodic_state q (Z.of_nat n) ->
  (forall i, (0 <= i < Z.of_nat n)%Z -> 0 < rho (q i)) ->
  (forall i, (0 <= i < Z.of_nat n)%Z -> dt <= dx * dx * rho (q i) / (2 * (4 / 3 * (mul o / reynolds o)))) ->
  let q' := AdvanceLevel (construct g o) bc (Z.of_nat n) dx dt q in
  total (fun i => mom (q' i) * mom (q' i) / rho (q' i) / 2) n <= total (fun i => mom (q i) * mom (q i) / rho (q i) / 2) n.
Proof.
  intros o g bc n dx dt q Hdx Hdt Hn Hm Hre Hbc Hper [S1 S2] Hr C q'.
  set (tm := construct g o) in *. set (mu := mul o / reynolds o) in *. set (h := half_state tm bc dx dt q).
  assert (Hmu : 0 < mu) by (unfold mu; apply Rdiv_lt_0_compat; assumption).
  assert (K1 : four_three_mu_effective (constants_ tm) = 4 / 3 * mu) by (unfold tm, construct, Constants, mu, Rdiv; cbn; ring).
  set (k := 4 / 3 * mu) in *. assert (Hk : 0 < k) by (unfold k; lra).
  set (a := fun j => dt * k / (dx * dx * rho (q j))).
  assert (E0 : forall c, rho c <> 0 -> mom c * mom c / rho c / 2 = 1 / 2 * (rho c * (vel c * vel c))) by (intros c Hc; unfold vel; field; exact Hc).
  assert (N : forall i, (0 <= i < Z.of_nat n)%Z -> rho (q i) <> 0) by (intros i Hi; apply Rgt_not_eq; apply Hr; exact Hi).
  rewrite (total_ext (fun i => mom (q i) * mom (q i) / rho (q i) / 2) (fun i => 1 / 2 * (rho (q i) * (vel (q i) * vel (q i)))) n)
    by (intros i Hi; apply E0; apply N; exact Hi).
  rewrite (total_ext (fun i => mom (q' i) * mom (q' i) / rho (q' i) / 2)
             (fun i => 1 / 2 * (rho (q i) * ((vel (q i) + a i * lap (fun j => vel (h j)) i) * (vel (q i) + a i * lap (fun j => vel (h j)) i)))) n).
  2:{ intros i Hi. unfold q'. rewrite (advance_inner tm bc (Z.of_nat n) dx dt q Hbc i Hi).
      rewrite E0 by (rewrite update_rho; apply N; exact Hi). rewrite update_rho, update_vel by (try exact Hdx; apply N; exact Hi). rewrite K1. reflexivity. }
  rewrite !total_mult. apply Rmult_le_compat_l; [lra|].
  destruct (Hper (UpdateConservatively q (ComputeDiffusionFluxes tm (1 / dx) q) (1 / 2 * dt) dx)) as [P1 P2].
  apply (periodic_energy n (fun i => rho (q i)) a (dt * k / (dx * dx)) (fun i => vel (q i)) (fun i => vel (h i))).
  - intros i Hi. generalize (Hr i Hi) (C i Hi); intros R1 C1. assert (D : 0 < dx * dx * rho (q i)) by (repeat apply Rmult_lt_0_compat; assumption).
    split; [split|split].
    + unfold a. apply Rmult_le_pos; [apply Rmult_le_pos; lra | left; apply Rinv_0_lt_compat; exact D].
    + unfold a. apply Rmult_le_reg_r with (dx * dx * rho (q i)); [exact D|].
      replace (dt * k / (dx * dx * rho (q i)) * (dx * dx * rho (q i))) with (dt * k) by (field; split; lra).
      apply Rmult_le_compat_r with (r := k) in C1; [|lra].
      replace (dx * dx * rho (q i) / (2 * k) * k) with (1 / 2 * (dx * dx * rho (q i))) in C1 by (field; lra). lra.
    + lra.
    + unfold a. field. split; lra.
  - intros i Hi. unfold h, half_state. rewrite Hbc by exact Hi. rewrite update_vel by (try exact Hdx; apply N; exact Hi). rewrite K1.
    unfold a. generalize (Hr i Hi); intro R1. field. split; lra.
  - rewrite S1. reflexivity.
  - rewrite S2. reflexivity.
  - unfold h, half_state. rewrite P1, (Hbc _ (Z.of_nat n - 1)%Z) by lia. reflexivity.
  - unfold h, half_state. rewrite P2, (Hbc _ 0%Z) by lia. reflexivity.
Qed.
Print Assumptions C95_kinetic_energy.

(** a periodic row of two cells with different density and opposite velocities; dt = 1/10, dx = 1, mu = 1 *)
Definition sample (i : Z) : cell := if Z.even i then mkCell 1 1 10 (fun _ => 1) (fun _ => 0) else mkCell 2 (-2) 10 (fun _ => 1) (fun _ => 0).
Example C95_example :
  periodic_state sample 2 /\ (forall i, (0 <= i < 2)%Z -> 0 < rho (sample i)) /\
  (forall i, (0 <= i < 2)%Z -> 1 / 10 <= 1 * 1 * rho (sample i) / (2 * (4 / 3 * (1 / 1)))) /\
  fills_outside (wrap 2) 2 /\ periodic (wrap 2) 2 /\
  (forall i, (0 <= i < 2)%Z -> within (Ropp 1) 1 (vel (sample i))) /\
  ghost_value (Ropp 1) 1 2 (fun i => vel (sample i)) (fun i => vel (half_state (construct 2 (mkOptions 1 1 1 1)) (wrap 2) 1 (1 / 10) sample i)) (-1).
Proof.
  assert (C : forall i, (0 <= i < 2)%Z -> i = 0%Z \/ i = 1%Z) by (intros; lia).
  split; [split; reflexivity|].
  split; [intros i Hi; destruct (C i Hi) as [-> | ->]; unfold sample; cbn; lra|].
  split; [intros i Hi; destruct (C i Hi) as [-> | ->]; unfold sample; cbn [Z.even rho]; lra|].
  split; [apply wrap_fills|]. split; [apply wrap_periodic; lia|].
  split; [intros i Hi; destruct (C i Hi) as [-> | ->]; unfold sample, vel, within; cbn [Z.even rho mom]; lra|].
  right. left. exists 1%Z. split; [lia|]. split; reflexivity.
Qed.

(** Gas with uniform velocity, enthalpy and mass fractions (and any density) is not changed. *)
Definition uniform (g v hh : R) (Y : nat -> R) (c : cell) : Prop := 0 < rho c /\ vel c = v /\ enth g c = hh /\ (forall s, frac s c = Y s).
Theorem C95_equilibrium : forall tm bc n dx dt q v hh Y, 0 < dx -> fills_outside bc n ->
  (forall i, uniform (gamma tm) v hh Y (q i)) ->
  (forall f, (forall i, (0 <= i < n)%Z -> uniform (gamma tm) v hh Y (f i)) -> forall i, uniform (gamma tm) v hh Y (bc f i)) ->
  forall i, (0 <= i < n)%Z ->
  let c := AdvanceLevel tm bc n dx dt q i in
  rho c = rho (q i) /\ mom c = mom (q i) /\ energy c = energy (q i) /\ (forall s, species c s = species (q i) s).
Proof.
  intros tm bc n dx dt q v hh Y Hdx Hbc Hq Hb i Hi c.
  assert (Z : forall f, (forall j, uniform (gamma tm) v hh Y (f j)) -> forall t j,
     let d := UpdateConservatively q (ComputeDiffusionFluxes tm (1 / dx) f) t dx j in
     rho d = rho (q j) /\ mom d = mom (q j) /\ energy d = energy (q j) /\ (forall s, species d s = species (q j) s)).
  { intros f Hf t j. cbv zeta. split; [apply update_rho|].
    unfold UpdateConservatively, ComputeDiffusionFluxes. cbn [mom energy species].
    destruct (Hf (j - 1)%Z) as [R0 [V0 [E0 Y0]]]. destruct (Hf j) as [R1 [V1 [E1 Y1]]]. destruct (Hf (j + 1)%Z) as [R2 [V2 [E2 Y2]]].
    replace (j + 1 - 1)%Z with j by lia.
    rewrite !flux_mom by lra. rewrite !flux_energy by lra. rewrite V0, V1, V2, E0, E1, E2.
    assert (F : forall k x, fick k dx x x = 0) by (intros; unfold fick; field; lra). rewrite !F.
    split; [ring|]. split; [ring|]. intro s. rewrite !flux_species by lra. rewrite Y0, Y1, Y2, !F. ring. }
  unfold c. rewrite (advance_inner tm bc n dx dt q Hbc i Hi). apply Z.
  apply Hb. intros j Hj. destruct (Z q Hq (1 / 2 * dt) j) as [A [B [C D]]]. cbv zeta in A, B, C, D.
  destruct (Hq j) as [R0 [V0 [E0 Y0]]].
  unfold uniform, vel, enth, frac, vel. rewrite A, B, C. split; [exact R0|]. split; [exact V0|]. split; [exact E0|].
  intro s. rewrite D. apply Y0.
Qed.
Print Assumptions C95_equilibrium.

Example C95_equilibrium_example :
  (forall i : Z, uniform 2 1 4 (fun _ => 1) (mkCell 2 2 5 (fun _ => 2) (fun _ => 0))).
Proof. intro i. unfold uniform, vel, enth, frac, vel. cbn [rho mom energy species]. repeat split; try lra. intro s. lra. Qed.

(** The source term reports no bound for the time step, although every step beyond the bound of C95_maximum_principle is unstable: on every periodic
    grid with an even number of cells there is a state whose velocities all grow by the same factor above 1. *)
Definition alternating (r u : R) (i : Z) : cell := mkCell r (if Z.even i then r * u else - (r * u)) 0 (fun _ => 0) (fun _ => 0).
Theorem C95_stable_dt_refuted : forall o g bc n dx dt r u, 0 < dx -> 0 < r -> 0 < mul o -> 0 < reynolds o ->
  (0 < n)%Z -> Z.even n = true -> fills_outside bc n -> periodic bc n ->
  dx * dx * r / (2 * (4 / 3 * (mul o / reynolds o))) < dt ->
  ComputeStableDt = None /\ periodic_state (alternating r u) n /\
  exists factor, 1 < factor /\
    forall i, (0 <= i < n)%Z -> vel (AdvanceLevel (construct g o) bc n dx dt (alternating r u) i) = factor * vel (alternating r u i).
Proof.
  intros o g bc n dx dt r u Hdx Hr Hm Hre Hn He Hbc Hper Hdt. split; [reflexivity|].
  assert (EV : forall j, Z.even (j - 1) = negb (Z.even j)) by (intro j; rewrite Z.even_sub; cbn; destruct (Z.even j); reflexivity).
  assert (EV2 : forall j, Z.even (j + 1) = negb (Z.even j)) by (intro j; rewrite Z.even_add; cbn; destruct (Z.even j); reflexivity).
  split.
  { unfold periodic_state, alternating. rewrite EV, He. cbn. split; reflexivity. }
  set (tm := construct g o). set (mu := mul o / reynolds o) in *. set (k := 4 / 3 * mu) in *.
  assert (Hmu : 0 < mu) by (unfold mu; apply Rdiv_lt_0_compat; assumption).
  assert (Hk : 0 < k) by (unfold k; lra).
  assert (K1 : four_three_mu_effective (constants_ tm) = k) by (unfold tm, construct, Constants, k, mu, Rdiv; cbn; ring).
  set (a := dt * k / (dx * dx * r)).
  assert (D : 0 < dx * dx * r) by (repeat apply Rmult_lt_0_compat; assumption).
  assert (Ha : 1 / 2 < a).
  { unfold a. apply Rmult_lt_reg_r with (dx * dx * r); [exact D|]. replace (dt * k / (dx * dx * r) * (dx * dx * r)) with (dt * k) by (field; split; lra).
    apply Rmult_lt_compat_r with (r := k) in Hdt; [|exact Hk]. replace (dx * dx * r / (2 * k) * k) with (1 / 2 * (dx * dx * r)) in Hdt by (field; lra). exact Hdt. }
  set (q := alternating r u).
  set (x := fun j => vel (q j)).
  assert (X1 : forall j, x (j - 1)%Z = - x j) by (intro j; unfold x, q, vel, alternating; cbn [mom rho]; rewrite EV; destruct (Z.even j); cbn [negb]; field; lra).
  assert (X2 : forall j, x (j + 1)%Z = - x j) by (intro j; unfold x, q, vel, alternating; cbn [mom rho]; rewrite EV2; destruct (Z.even j); cbn [negb]; field; lra).
  assert (Rq : forall j, rho (q j) = r) by reflexivity.
  set (hf := UpdateConservatively q (ComputeDiffusionFluxes tm (1 / dx) q) (1 / 2 * dt) dx).
  assert (HY : forall j, vel (hf j) = (1 - 2 * a) * x j).
  { intro j. unfold hf. rewrite update_vel by (try exact Hdx; rewrite Rq; lra). fold x. unfold lap. rewrite X1, X2, Rq, K1. unfold a. fold (x j).
    field. split; lra. }
  destruct (Hper hf) as [P1 P2].
  set (y := fun j => vel (bc hf j)).
  assert (YI : forall j, (-1 <= j <= n)%Z -> y j = (1 - 2 * a) * x j).
  { intros j Hj. unfold y. destruct (Z.eq_dec j (-1)) as [-> |N1].
    - rewrite P1, HY. f_equal. unfold x, q, vel, alternating. cbn [mom rho]. rewrite EV, He. reflexivity.
    - destruct (Z.eq_dec j n) as [-> |N2].
      + rewrite P2, HY. f_equal. unfold x, q, vel, alternating. cbn [mom rho]. rewrite He. reflexivity.
      + rewrite Hbc by lia. apply HY. }
  exists (1 - 4 * a + 8 * (a * a)). split.
  { assert (0 < 4 * a * (2 * a - 1)) by (apply Rmult_lt_0_compat; lra). lra. }
  intros i Hi. unfold q, tm. rewrite (advance_inner (construct g o) bc n dx dt (alternating r u) Hbc i Hi). fold q tm hf.
  rewrite update_vel by (try exact Hdx; rewrite Rq; lra). fold y. unfold lap. rewrite !YI by lia. rewrite X1, X2, Rq, K1. fold a. fold (x i). ring.
Qed.
Print Assumptions C95_stable_dt_refuted.

Example C95_stable_dt_example : fills_outside (wrap 4) 4 /\ periodic (wrap 4) 4 /\ Z.even 4 = true /\ 1 * 1 * 1 / (2 * (4 / 3 * (1 / 1))) < 1.
Proof. split; [apply wrap_fills|]. split; [apply wrap_periodic; lia|]. split; [reflexivity | lra]. Qed.

(** A copy of the source term forgets its options: unless mul / reynolds has the default value 0.009, it computes another friction between any two
    cells with different velocities. *)
Theorem C95_copy_refuted : forall g o dx l r, 0 < dx -> mul o / reynolds o <> 9 / 1000 -> vel l <> vel r ->
  mom (ComputeDiffusionFlux (copy (construct g o)) (1 / dx) l r) <> mom (ComputeDiffusionFlux (construct g o) (1 / dx) l r).
Proof.
  intros g o dx l r Hdx Ho Hv. rewrite !flux_mom by lra. intro E. apply Ho.
  assert (K1 : four_three_mu_effective (constants_ (construct g o)) = 4 / 3 * (mul o / reynolds o)) by (unfold construct, Constants, Rdiv; cbn; ring).
  assert (K2 : four_three_mu_effective (constants_ (copy (construct g o))) = 4 / 3 * (9 / 1000)).
  { unfold copy, Constants, default_options. cbn [constants_ four_three_mu_effective mul reynolds]. field. }
  rewrite K1, K2 in E. unfold fick in E. set (m := mul o / reynolds o) in *. clearbody m.
  assert (V : (vel r - vel l) / dx <> 0) by (unfold Rdiv; apply Rmult_integral_contrapositive_currified; [lra | apply Rinv_neq_0_compat; lra]).
  apply Rmult_eq_reg_r in E; [lra | exact V].
Qed.
Print Assumptions C95_copy_refuted.
Example C95_copy_example : mul (mkOptions 1 1 1 1) / reynolds (mkOptions 1 1 1 1) <> 9 / 1000 /\ vel (sample 0) <> vel (sample 1).
Proof. unfold sample, vel. cbn [mul reynolds Z.even rho mom]. split; lra. Qed.
