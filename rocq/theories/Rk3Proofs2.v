(** Fluxes at the faces; contact waves. *)
From Coq Require Import Reals ZArith Bool Arith Lia Lra Psatz.
From Verif Require Import Rk3Model Rk3Spec Rk3Proofs.
Local Open Scope R_scope.

Lemma edge_uniform x : CellToEdge_ x x x x = x.
Proof. unfold CellToEdge_, alpha_1, alpha_2. field. Qed.
Lemma edge_flux_uniform g dx q : EdgeFlux g dx (CompleteFromCons g q) (CompleteFromCons g q) (CompleteFromCons g q) (CompleteFromCons g q) = Flux (CompleteFromCons g q).
Proof.
  unfold EdgeFlux. assert (E : CellToEdge (co (CompleteFromCons g q)) (co (CompleteFromCons g q)) (co (CompleteFromCons g q)) (co (CompleteFromCons g q)) = q) by (apply cons_ext; apply edge_uniform).
  rewrite E. unfold ComputeDiffusion. set (U := Velocity _). set (T := Temperature _ _). set (sq := sqrt T). replace (U - U) with 0 by ring. replace (T - T) with 0 by ring.
  set (F := Flux _). apply cons_ext; cbn; unfold Rdiv; ring.
Qed.

(** ** Mirror *)
Definition mirror (q : cons) : cons := mkCons (density q) (- momentum q) (energy q).
Definition mirror_flux (f : cons) : cons := mkCons (- density f) (momentum f) (- energy f).
Definition mirror_complete (q : complete) : complete := mkComplete (mirror (co q)) (pressure q) (speed_of_sound q).
Lemma complete_mirror g q : CompleteFromCons g (mirror q) = mirror_complete (CompleteFromCons g q).
Proof. unfold CompleteFromCons, mirror_complete. cbn. replace (- momentum q * - momentum q) with (momentum q * momentum q) by ring. reflexivity. Qed.
Lemma edge_mirror g dx a b c d : EdgeFlux g dx (mirror_complete d) (mirror_complete c) (mirror_complete b) (mirror_complete a) = mirror_flux (EdgeFlux g dx a b c d).
Proof.
  unfold EdgeFlux. cbn [co mirror_complete]. assert (E : CellToEdge (mirror (co d)) (mirror (co c)) (mirror (co b)) (mirror (co a)) = mirror (CellToEdge (co a) (co b) (co c) (co d))) by (apply cons_ext; cbn; unfold CellToEdge_; ring).
  rewrite E, complete_mirror. set (e := CompleteFromCons g _). clearbody e. unfold ComputeDiffusion. change (Temperature g (mirror_complete e)) with (Temperature g e). change (Temperature g (mirror_complete b)) with (Temperature g b). change (Temperature g (mirror_complete c)) with (Temperature g c).
  assert (V : forall x, Velocity (mirror_complete x) = - Velocity x) by (intros x; unfold Velocity; cbn; unfold Rdiv; ring). rewrite !V.
  set (ve := Velocity e). set (vb := Velocity b). set (vc := Velocity c). set (te := sqrt (Temperature g e)). set (tb := Temperature g b). set (tc := Temperature g c). clearbody ve vb vc te tb tc.
  apply cons_ext; cbn; unfold Rdiv; ring.
Qed.
Definition gmirror (u : Z -> cons) : Z -> cons := fun i => mirror (u (-1 - i)%Z).
Lemma edge_flux_mirror g dx u i : edge_flux g dx (gmirror u) i = mirror_flux (edge_flux g dx u (- i)).
Proof.
  unfold edge_flux, gmirror. rewrite !complete_mirror, edge_mirror. replace (-1 - (i + 1))%Z with (- i - 2)%Z by lia. replace (-1 - i)%Z with (- i - 1)%Z by lia. replace (-1 - (i - 1))%Z with (- i)%Z by lia. replace (-1 - (i - 2))%Z with (- i + 1)%Z by lia. reflexivity.
Qed.
Lemma rhs_mirror g dx u i : rhs g dx (gmirror u) i = mirror (rhs g dx u (-1 - i)).
Proof.
  unfold rhs. rewrite !edge_flux_mirror. replace (-1 - i + 1)%Z with (- i)%Z by lia. replace (- (i + 1))%Z with (-1 - i)%Z by lia.
  set (a := edge_flux g dx u (- i)). set (b := edge_flux g dx u (-1 - i)). clearbody a b. apply cons_ext; cbn; ring.
Qed.
Lemma edge_flux_ext g dx u v i : (forall k, u k = v k) -> edge_flux g dx u i = edge_flux g dx v i.
Proof. intros H. unfold edge_flux. rewrite !H. reflexivity. Qed.
Lemma rhs_ext g dx u v i : (forall k, u k = v k) -> rhs g dx u i = rhs g dx v i.
Proof. intros H. unfold rhs. rewrite !(edge_flux_ext g dx u v _ H). reflexivity. Qed.
Lemma euler_mirror g dx dt u i : euler _ gplus gtimes (rhs g dx) dt (gmirror u) i = gmirror (euler _ gplus gtimes (rhs g dx) dt u) i.
Proof. unfold euler, gplus, gtimes. rewrite rhs_mirror. unfold gmirror. apply cons_ext; cbn -[rhs]; ring. Qed.
Lemma euler_ext g dx dt u v i : (forall k, u k = v k) -> euler _ gplus gtimes (rhs g dx) dt u i = euler _ gplus gtimes (rhs g dx) dt v i.
Proof. intros H. unfold euler, gplus, gtimes. rewrite (rhs_ext _ _ _ _ _ H), H. reflexivity. Qed.
Lemma second_mirror g dx dt u i : second_stage _ gplus gtimes (rhs g dx) dt (gmirror u) i = gmirror (second_stage _ gplus gtimes (rhs g dx) dt u) i.
Proof.
  unfold second_stage, gplus at 1, gtimes at 1 2. rewrite (euler_ext g dx dt _ (gmirror (first_stage _ gplus gtimes (rhs g dx) dt u))) by (intros; apply euler_mirror). rewrite euler_mirror.
  unfold gmirror, first_stage. unfold gplus at 3, gtimes at 3 4. set (e := euler _ _ _ _ _ _ _). clearbody e. apply cons_ext; cbn; ring.
Qed.
Lemma flux_mirror g dt dx (s : nat -> cons) F : dx <> 0 -> ComputeNumericFlux g (fun k => CompleteFromCons g (s k)) dt dx = Some F ->
  ComputeNumericFlux g (fun k => CompleteFromCons g (mirror (s (11 - k)%nat))) dt dx = Some (mirror_flux F).
Proof.
  intros Hdx H. set (u := fun i : Z => s (Z.to_nat (i + 6))).
  assert (E1 : ComputeNumericFlux g (fun k => CompleteFromCons g (s k)) dt dx = ComputeNumericFlux g (fun k => CompleteFromCons g (u (0 - 6 + Z.of_nat k)%Z)) dt dx).
  { unfold ComputeNumericFlux. cbv zeta. unfold u. replace (fill 0 12 (fun i : nat => Some (CompleteFromCons g (s (Z.to_nat (0 - 6 + Z.of_nat i + 6)))))) with (fill 0 12 (fun i : nat => Some (CompleteFromCons g (s i)))); [reflexivity|].
    apply FunctionalExtensionality.functional_extensionality. intros i. unfold fill. replace (Z.to_nat (0 - 6 + Z.of_nat i + 6)) with i by lia. reflexivity. }
  assert (E2 : ComputeNumericFlux g (fun k => CompleteFromCons g (mirror (s (11 - k)%nat))) dt dx = ComputeNumericFlux g (fun k => CompleteFromCons g (gmirror u (0 - 6 + Z.of_nat k)%Z)) dt dx).
  { unfold ComputeNumericFlux. cbv zeta. unfold gmirror, u. replace (fill 0 12 (fun i : nat => Some (CompleteFromCons g (mirror (s (Z.to_nat (-1 - (0 - 6 + Z.of_nat i) + 6))))))) with (fill 0 12 (fun i : nat => Some (CompleteFromCons g (mirror (s (11 - i)%nat))))); [reflexivity|].
    apply FunctionalExtensionality.functional_extensionality. intros i. unfold fill. replace (Z.to_nat (-1 - (0 - 6 + Z.of_nat i) + 6)) with (11 - i)%nat by lia. reflexivity. }
  rewrite E1 in H. rewrite E2. rewrite flux_stages in H |- * by exact Hdx. injection H as <-. f_equal.
  rewrite (edge_flux_ext g dx (first_stage _ gplus gtimes (rhs g dx) dt (gmirror u)) (gmirror (first_stage _ gplus gtimes (rhs g dx) dt u))) by (intros; apply euler_mirror).
  rewrite (edge_flux_ext g dx (second_stage _ gplus gtimes (rhs g dx) dt (gmirror u)) (gmirror (second_stage _ gplus gtimes (rhs g dx) dt u))) by (intros; apply second_mirror).
  rewrite !edge_flux_mirror. cbn [Z.opp]. set (a := edge_flux g dx u 0). set (b := edge_flux g dx _ 0). set (c := edge_flux g dx _ 0). clearbody a b c. apply cons_ext; cbn; ring.
Qed.

(** ** Contact waves *)
Definition contact (g : gas) (a p r : R) : cons := mkCons r (r * a) (1 / 2 * r * (a * a) + p * gamma_minus_1_inv g).
Definition along (a r : R) : cons := mkCons r (r * a) (1 / 2 * r * (a * a)).
Section Contact.
Variables (g : gas) (dx dt a p : R).
Hypothesis Hg : gamma_minus_1_inv g <> 0.
Hypothesis He : eta_0 g = 0.
Hypothesis Hk : k_0 g = 0.
Hypothesis Hdx : dx <> 0.
Definition edge_density (r : Z -> R) (i : Z) : R := alpha_1 * (r (i - 1)%Z + r i) - alpha_2 * (r (i - 2)%Z + r (i + 1)%Z).
Lemma edge_contact r i : edge_density r i <> 0 -> edge_flux g dx (fun k => contact g a p (r k)) i = mkCons (edge_density r i * a) (edge_density r i * (a * a) + p) (a * (1 / 2 * edge_density r i * (a * a) + p * gamma_minus_1_inv g + p)).
Proof.
  intros H. unfold edge_flux, EdgeFlux. cbn [co CompleteFromCons]. assert (E : CellToEdge (contact g a p (r (i - 2)%Z)) (contact g a p (r (i - 1)%Z)) (contact g a p (r i)) (contact g a p (r (i + 1)%Z)) = contact g a p (edge_density r i)).
  { apply cons_ext; cbn; unfold CellToEdge_, edge_density, alpha_1, alpha_2; field. }
  rewrite E. unfold ComputeDiffusion. rewrite He, Hk. set (e := edge_density r i) in *. clearbody e. set (x1 := Velocity _ - Velocity _). set (x2 := Temperature _ _ - Temperature _ _). set (x3 := sqrt (Temperature _ _)). set (x4 := Velocity _). clearbody x1 x2 x3 x4.
  apply cons_ext; cbn; field; auto.
Qed.
Lemma rhs_contact r i : (forall k, edge_density r k <> 0) -> rhs g dx (fun k => contact g a p (r k)) i = along a (advected alpha_1 alpha_2 a dx r i).
Proof.
  intros H. unfold rhs. rewrite !edge_contact by apply H. unfold advected. fold (edge_density r i). cbv zeta. fold (edge_density r (i + 1)). apply cons_ext; cbn; field; exact Hdx.
Qed.
Notation s1 := (first_stage _ (fplus Z) (ftimes Z) (advected alpha_1 alpha_2 a dx) dt).
Notation s2 := (second_stage _ (fplus Z) (ftimes Z) (advected alpha_1 alpha_2 a dx) dt).
Notation s3 := (third_stage _ (fplus Z) (ftimes Z) (advected alpha_1 alpha_2 a dx) dt).
Lemma euler_contact u r i : (forall k, u k = contact g a p (r k)) -> (forall k, edge_density r k <> 0) -> euler _ gplus gtimes (rhs g dx) dt u i = contact g a p (euler _ (fplus Z) (ftimes Z) (advected alpha_1 alpha_2 a dx) dt r i).
Proof.
  intros E H. unfold euler, gplus, gtimes, fplus, ftimes. rewrite (rhs_ext g dx u (fun k => contact g a p (r k)) i E), rhs_contact, E by exact H. set (d := advected _ _ _ _ _ _). clearbody d. apply cons_ext; cbn; ring.
Qed.
Lemma third_contact r i : (forall k, edge_density r k <> 0) -> (forall k, edge_density (s1 r) k <> 0) -> (forall k, edge_density (s2 r) k <> 0) ->
  third_stage _ gplus gtimes (rhs g dx) dt (fun k => contact g a p (r k)) i = contact g a p (s3 r i).
Proof.
  intros H0 H1 H2. set (u := fun k => contact g a p (r k)).
  assert (A1 : forall k, first_stage _ gplus gtimes (rhs g dx) dt u k = contact g a p (s1 r k)) by (intros k; apply euler_contact; [reflexivity|exact H0]).
  assert (A2 : forall k, second_stage _ gplus gtimes (rhs g dx) dt u k = contact g a p (s2 r k)).
  { intros k. set (L := advected alpha_1 alpha_2 a dx) in *.
    change (second_stage _ gplus gtimes (rhs g dx) dt u k) with (add (scale (3 / 4) (u k)) (scale (1 / 4) (euler _ gplus gtimes (rhs g dx) dt (first_stage _ gplus gtimes (rhs g dx) dt u) k))).
    change (second_stage _ (fplus Z) (ftimes Z) L dt r k) with (3 / 4 * r k + 1 / 4 * euler _ (fplus Z) (ftimes Z) L dt (first_stage _ (fplus Z) (ftimes Z) L dt r) k).
    rewrite (euler_contact _ (first_stage _ (fplus Z) (ftimes Z) L dt r) k A1 H1). fold L. set (e := euler _ _ _ _ _ _ _). clearbody e. unfold u. apply cons_ext; cbn; field. }
  set (L := advected alpha_1 alpha_2 a dx) in *.
  change (third_stage _ gplus gtimes (rhs g dx) dt u i) with (add (scale (1 / 3) (u i)) (scale (2 / 3) (euler _ gplus gtimes (rhs g dx) dt (second_stage _ gplus gtimes (rhs g dx) dt u) i))).
  change (third_stage _ (fplus Z) (ftimes Z) L dt r i) with (1 / 3 * r i + 2 / 3 * euler _ (fplus Z) (ftimes Z) L dt (second_stage _ (fplus Z) (ftimes Z) L dt r) i).
  rewrite (euler_contact _ (second_stage _ (fplus Z) (ftimes Z) L dt r) i A2 H2). fold L. set (e := euler _ _ _ _ _ _ _). clearbody e. unfold u. apply cons_ext; cbn; field.
Qed.
End Contact.

(** ** Growth of a wave of three cells *)
Definition beta : R := alpha_1 + 2 * alpha_2.
Lemma advected_ext w1 w2 a dx r r' i : (forall k, r k = r' k) -> advected w1 w2 a dx r i = advected w1 w2 a dx r' i.
Proof. intros H. unfold advected. rewrite !H. reflexivity. Qed.
Lemma advected_lin w1 w2 a dx x y u v i : advected w1 w2 a dx (fun k => x * u k + y * v k) i = x * advected w1 w2 a dx u i + y * advected w1 w2 a dx v i.
Proof. unfold advected, Rdiv. ring. Qed.
Definition three (r : Z -> R) : Prop := forall i, r i + r (i + 1)%Z + r (i + 2)%Z = 0.
Lemma three_period r i : three r -> r (i + 3)%Z = r i.
Proof. intros H. pose proof (H i). pose proof (H (i + 1)%Z) as B. replace (i + 1 + 1)%Z with (i + 2)%Z in B by lia. replace (i + 1 + 2)%Z with (i + 3)%Z in B by lia. lra. Qed.
Lemma advected_three a dx c r i : three r -> advected alpha_1 alpha_2 a dx (fun k => c + r k) i = - (beta * a / dx) * (r (i + 1)%Z - r (i - 1)%Z).
Proof.
  intros H. unfold advected. cbv zeta. replace (i + 1 - 1)%Z with i by lia. replace (i + 1 - 2)%Z with (i - 1)%Z by lia. replace (i + 1 + 1)%Z with (i + 2)%Z by lia.
  pose proof (H i) as A. pose proof (H (i - 1)%Z) as B. pose proof (H (i - 2)%Z) as C. replace (i - 1 + 1)%Z with i in B by lia. replace (i - 1 + 2)%Z with (i + 1)%Z in B by lia. replace (i - 2 + 1)%Z with (i - 1)%Z in C by lia. replace (i - 2 + 2)%Z with i in C by lia.
  replace (r (i - 2)%Z) with (r (i + 1)%Z) by lra. replace (r (i + 2)%Z) with (r (i - 1)%Z) by lra. replace (r i) with (- r (i - 1)%Z - r (i + 1)%Z) by lra. unfold beta, alpha_1, alpha_2. unfold Rdiv. ring.
Qed.
Lemma third_three a dx dt c r i : dx <> 0 -> three r -> let k := beta * a * dt / dx in
  third_stage _ (fplus Z) (ftimes Z) (advected alpha_1 alpha_2 a dx) dt (fun j => c + r j) i = c + ((1 - 3 / 2 * (k * k)) * r i - k * (1 - k * k / 2) * (r (i + 1)%Z - r (i - 1)%Z)).
Proof.
  intros Hdx H k. destruct (stages_linear Z (advected alpha_1 alpha_2 a dx) (fun u v E j => advected_ext _ _ _ _ u v j E) (fun x y u v j => advected_lin _ _ _ _ x y u v j) dt (fun j => c + r j) i) as (_ & _ & E). rewrite E. clear E.
  set (L := advected alpha_1 alpha_2 a dx). set (q := beta * a / dx). assert (K : k = q * dt) by (unfold k, q; field; exact Hdx).
  assert (L1 : forall j, L (fun j => c + r j) j = 0 + - q * (r (j + 1)%Z - r (j - 1)%Z)) by (intros j; unfold L, q; rewrite advected_three by exact H; ring).
  assert (T1 : three (fun j => - q * (r (j + 1)%Z - r (j - 1)%Z))).
  { intros j. pose proof (H (j - 1)%Z) as A. pose proof (H (j + 1)%Z) as B. replace (j - 1 + 1)%Z with j in A by lia. replace (j - 1 + 2)%Z with (j + 1)%Z in A by lia. replace (j + 1 - 1)%Z with j by lia. replace (j + 2 - 1)%Z with (j + 1)%Z by lia. replace (j + 1 + 1)%Z with (j + 2)%Z in * by lia. replace (j + 1 + 2)%Z with (j + 2 + 1)%Z in B by lia. nra. }
  assert (L2 : forall j, L (L (fun j => c + r j)) j = 0 + - 3 * (q * q) * r j).
  { intros j. unfold L at 1. rewrite (advected_ext _ _ _ _ _ (fun j => 0 + - q * (r (j + 1)%Z - r (j - 1)%Z)) j L1). rewrite (advected_three a dx 0 (fun j => - q * (r (j + 1)%Z - r (j - 1)%Z)) j T1). fold q.
    replace (j + 1 - 1)%Z with j by lia. replace (j - 1 + 1)%Z with j by lia. replace (j + 1 + 1)%Z with (j - 1 + 3)%Z by lia. rewrite (three_period r _ H). replace (j - 1 - 1)%Z with (j - 2)%Z by lia. rewrite <- (three_period r (j - 2)%Z H). replace (j - 2 + 3)%Z with (j + 1)%Z by lia.
    pose proof (H (j - 1)%Z) as A. replace (j - 1 + 1)%Z with j in A by lia. replace (j - 1 + 2)%Z with (j + 1)%Z in A by lia. replace (r (j - 1)%Z) with (- r j - r (j + 1)%Z) by lra. ring. }
  assert (T2 : three (fun j => - 3 * (q * q) * r j)) by (intros j; specialize (H j); nra).
  assert (L3 : L (L (L (fun j => c + r j))) i = 3 * (q * q * q) * (r (i + 1)%Z - r (i - 1)%Z)).
  { unfold L at 1. rewrite (advected_ext _ _ _ _ _ (fun j => 0 + - 3 * (q * q) * r j) i L2). rewrite (advected_three a dx 0 (fun j => - 3 * (q * q) * r j) i T2). fold q. ring. }
  rewrite L1, L2, L3, K. field.
Qed.
Definition squares (r : Z -> R) (i : Z) : R := r i * r i + r (i + 1)%Z * r (i + 1)%Z + r (i + 2)%Z * r (i + 2)%Z.
Lemma growth r k i : three r -> squares (fun i => (1 - 3 / 2 * (k * k)) * r i - k * (1 - k * k / 2) * (r (i + 1)%Z - r (i - 1)%Z)) i = (1 - 3 / 4 * k ^ 4 + 3 / 4 * k ^ 6) * squares r i.
Proof.
  intros H. unfold squares. replace (i + 1 - 1)%Z with i by lia. replace (i + 2 - 1)%Z with (i + 1)%Z by lia. replace (i + 2 + 1)%Z with (i + 3)%Z by lia. rewrite (three_period r i H). replace (i + 1 + 1)%Z with (i + 2)%Z by lia.
  rewrite <- (three_period r (i - 1) H). replace (i - 1 + 3)%Z with (i + 2)%Z by lia. specialize (H i). replace (r (i + 2)%Z) with (- r i - r (i + 1)%Z) by lra. field.
Qed.
