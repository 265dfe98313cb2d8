(** The stages. *)
From Coq Require Import Reals ZArith Bool Arith Lia Lra Psatz.
From Verif Require Import Rk3Model Rk3Spec.
Local Open Scope R_scope.

Lemma cons_ext a b : density a = density b -> momentum a = momentum b -> energy a = energy b -> a = b.
Proof. destruct a, b; cbn; intros -> -> ->; reflexivity. Qed.

(** Grids of conservative states *)
Definition gplus (u v : Z -> cons) : Z -> cons := fun i => add (u i) (v i).
Definition gtimes (c : R) (u : Z -> cons) : Z -> cons := fun i => scale c (u i).
Definition edge_flux (g : gas) (dx : R) (u : Z -> cons) (i : Z) : cons :=
  EdgeFlux g dx (CompleteFromCons g (u (i - 2)%Z)) (CompleteFromCons g (u (i - 1)%Z)) (CompleteFromCons g (u i)) (CompleteFromCons g (u (i + 1)%Z)).
Definition rhs (g : gas) (dx : R) (u : Z -> cons) : Z -> cons := fun i => scale (1 / dx) (sub (edge_flux g dx u i) (edge_flux g dx u (i + 1))).

Section Stages.
Variables (g : gas) (dt dx : R) (j : Z).
Hypothesis Hdx : dx <> 0.
Definition rep (v : Z -> cons) (a b : nat) (arr : array complete) : Prop := forall k, (a <= k < b)%nat -> arr k = Some (CompleteFromCons g (v (j - 6 + Z.of_nat k)%Z)).
Definition frep (v : Z -> cons) (a b : nat) (arr : array cons) : Prop := forall k, (a <= k < b)%nat -> arr k = Some (edge_flux g dx v (j - 6 + Z.of_nat k)).
Lemma fill_in {A} a b (f : nat -> option A) k : (a <= k < b)%nat -> fill a b f k = f k.
Proof. intros H. unfold fill. destruct (Nat.leb_spec a k); [|lia]. destruct (Nat.ltb_spec k b); [|lia]. reflexivity. Qed.
Lemma face_rep v a b arr : (2 <= a)%nat \/ a = 0%nat -> rep v a b arr -> frep v (a + 2) (b - 1) (fill (a + 2) (b - 1) (face g dx arr)).
Proof.
  intros Ha H k Hk. rewrite fill_in by exact Hk. unfold face. rewrite !H by lia. unfold edge_flux.
  replace (j - 6 + Z.of_nat (k - 2))%Z with (j - 6 + Z.of_nat k - 2)%Z by lia. replace (j - 6 + Z.of_nat (k - 1))%Z with (j - 6 + Z.of_nat k - 1)%Z by lia.
  replace (j - 6 + Z.of_nat (k + 1))%Z with (j - 6 + Z.of_nat k + 1)%Z by lia. reflexivity.
Qed.
Notation u1 := (first_stage _ gplus gtimes (rhs g dx) dt).
Notation u2 := (second_stage _ gplus gtimes (rhs g dx) dt).
Lemma stage1_rep u a b arr f : rep u a b arr -> frep u a (b + 1) f -> rep (u1 u) a b (fill a b (stage1 g (dt / dx) arr f)).
Proof.
  intros H F k Hk. rewrite fill_in by exact Hk. unfold stage1. rewrite H, !F by lia. f_equal. f_equal. replace (j - 6 + Z.of_nat (k + 1))%Z with (j - 6 + Z.of_nat k + 1)%Z by lia.
  unfold first_stage, euler, gplus, gtimes, rhs. set (i := (j - 6 + Z.of_nat k)%Z). clearbody i. cbn [co CompleteFromCons]. set (a1 := edge_flux g dx u i). set (a2 := edge_flux g dx u (i + 1)). clearbody a1 a2.
  apply cons_ext; cbn; field; exact Hdx.
Qed.
Lemma stage2_rep u a b arr arr1 f : rep u a b arr -> rep (u1 u) a b arr1 -> frep (u1 u) a (b + 1) f -> rep (u2 u) a b (fill a b (stage2 g (dt / dx) arr arr1 f)).
Proof.
  intros H H1 F k Hk. rewrite fill_in by exact Hk. unfold stage2. rewrite H, H1, !F by lia. f_equal. f_equal. replace (j - 6 + Z.of_nat (k + 1))%Z with (j - 6 + Z.of_nat k + 1)%Z by lia.
  set (v := u1 u) in *. unfold second_stage, euler. fold v. clearbody v. unfold gplus, gtimes, rhs. set (i := (j - 6 + Z.of_nat k)%Z). clearbody i. cbn [co CompleteFromCons].
  set (a1 := edge_flux g dx v i). set (a2 := edge_flux g dx v (i + 1)). clearbody a1 a2. apply cons_ext; cbn; field; exact Hdx.
Qed.
Lemma rep_sub v a b a' b' arr : rep v a b arr -> (a <= a')%nat -> (b' <= b)%nat -> rep v a' b' arr.
Proof. intros H Ha Hb k Hk. apply H. lia. Qed.

Lemma flux_stages u : ComputeNumericFlux g (fun k => CompleteFromCons g (u (j - 6 + Z.of_nat k)%Z)) dt dx =
  Some (add (add (scale (1 / 6) (edge_flux g dx u j)) (scale (1 / 6) (edge_flux g dx (u1 u) j))) (scale (2 / 3) (edge_flux g dx (u2 u) j))).
Proof.
  unfold ComputeNumericFlux. cbv zeta.
  assert (R0 : rep u 0 12 (fill 0 12 (fun i => Some (CompleteFromCons g (u (j - 6 + Z.of_nat i)%Z))))) by (intros k Hk; rewrite fill_in by exact Hk; reflexivity).
  set (u_n := fill 0 12 _) in *. clearbody u_n.
  pose proof (face_rep u 0 12 u_n ltac:(lia) R0) as F0. cbn [Nat.add Nat.sub] in F0. set (f_n := fill 2 11 _) in *. clearbody f_n.
  pose proof (stage1_rep u 2 10 u_n f_n (rep_sub _ _ _ 2 10 _ R0 ltac:(lia) ltac:(lia)) F0) as R1. set (u_n13 := fill 2 10 _) in *. clearbody u_n13.
  pose proof (face_rep (u1 u) 2 10 u_n13 ltac:(lia) R1) as F1. cbn [Nat.add Nat.sub] in F1. set (f_n13 := fill 4 9 _) in *. clearbody f_n13.
  pose proof (stage2_rep u 4 8 u_n u_n13 f_n13 (rep_sub _ _ _ 4 8 _ R0 ltac:(lia) ltac:(lia)) (rep_sub _ _ _ 4 8 _ R1 ltac:(lia) ltac:(lia)) F1) as R2. set (u_n23 := fill 4 8 _) in *. clearbody u_n23.
  pose proof (face_rep (u2 u) 4 8 u_n23 ltac:(lia) R2) as F2. cbn [Nat.add Nat.sub] in F2. set (f_n23 := fill 6 7 _) in *. clearbody f_n23.
  rewrite F0, F1, F2 by lia. replace (j - 6 + Z.of_nat 6)%Z with j by lia. reflexivity.
Qed.
End Stages.

(** Updating every cell with the fluxes *)
Lemma update_stages g u dt dx : dx <> 0 -> exists F : Z -> cons,
  (forall j, ComputeNumericFlux g (fun k => CompleteFromCons g (u (j - 6 + Z.of_nat k)%Z)) dt dx = Some (F j)) /\
  (forall i, add (u i) (scale (dt / dx) (sub (F i) (F (i + 1)%Z))) = third_stage _ gplus gtimes (rhs g dx) dt u i).
Proof.
  intros Hdx. eexists. split; [intros j; apply flux_stages; exact Hdx|]. intros i. cbv beta.
  set (v := first_stage _ gplus gtimes (rhs g dx) dt u). set (w := second_stage _ gplus gtimes (rhs g dx) dt u). unfold third_stage, euler. fold w.
  assert (W : w i = add (scale (3 / 4) (u i)) (scale (1 / 4) (add (v i) (scale dt (rhs g dx v i))))) by reflexivity.
  assert (V : v i = add (u i) (scale dt (rhs g dx u i))) by reflexivity.
  clearbody v w. unfold gplus at 1, gtimes at 1 2. unfold gplus, gtimes. rewrite W, V. unfold rhs.
  set (a1 := edge_flux g dx u i). set (a2 := edge_flux g dx u (i + 1)). set (b1 := edge_flux g dx v i). set (b2 := edge_flux g dx v (i + 1)). set (c1 := edge_flux g dx w i). set (c2 := edge_flux g dx w (i + 1)). clearbody a1 a2 b1 b2 c1 c2.
  apply cons_ext; cbn; field; exact Hdx.
Qed.

(** ** Linear equations *)
Section Linear.
Variable I : Type.
Definition fplus (u v : I -> R) : I -> R := fun i => u i + v i.
Definition ftimes (c : R) (u : I -> R) : I -> R := fun i => c * u i.
Variable L : (I -> R) -> I -> R.
Hypothesis L_ext : forall u v, (forall i, u i = v i) -> forall i, L u i = L v i.
Hypothesis L_lin : forall a b u v i, L (fun k => a * u k + b * v k) i = a * L u i + b * L v i.
Lemma stages_linear dt u i :
  first_stage _ fplus ftimes L dt u i = u i + dt * L u i /\
  second_stage _ fplus ftimes L dt u i = u i + dt / 2 * L u i + dt * dt / 4 * L (L u) i /\
  third_stage _ fplus ftimes L dt u i = u i + dt * L u i + dt * dt / 2 * L (L u) i + dt * dt * dt / 6 * L (L (L u)) i.
Proof.
  assert (L2 : forall a b c u v w i, L (fun k => a * u k + b * v k + c * w k) i = a * L u i + b * L v i + c * L w i).
  { intros a b c x y z k. rewrite (L_ext _ (fun m => 1 * (a * x m + b * y m) + c * z m)) by (intros; ring). rewrite (L_lin 1 c (fun m => a * x m + b * y m)), L_lin. ring. }
  assert (E1 : forall i, first_stage _ fplus ftimes L dt u i = 1 * u i + dt * L u i) by (intros k; unfold first_stage, euler, fplus, ftimes; ring).
  assert (E2 : forall i, second_stage _ fplus ftimes L dt u i = 1 * u i + dt / 2 * L u i + dt * dt / 4 * L (L u) i).
  { intros k. unfold second_stage, euler, fplus, ftimes. rewrite (L_ext _ _ E1), (L_lin 1 dt u (L u)), E1. field. }
  split; [rewrite E1; ring|]. split; [rewrite E2; ring|]. unfold third_stage, euler, fplus, ftimes. rewrite (L_ext _ _ E2), L2, E2. field.
Qed.
End Linear.
