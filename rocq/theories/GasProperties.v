(** C33 (state conversions), C34 (reflection), C35 (rotation), C37 (Einfeldt signal speeds). *)
From Coq Require Import List Reals Lra Lia Bool.
From Verif Require Import GasModel GasSpec GasProofs RotationProofs.
Import ListNotations.
Local Open Scope R_scope.

(** ** C33 *)

(** Primitive -> complete -> primitive is the identity, in every dimension. *)
Theorem C33_primitive_roundtrip : forall g w, 0 < p_density w -> PrimFromComplete (CompleteFromPrim g w) = w.
Proof. intros g w H. apply prim_roundtrip. lra. Qed.
Print Assumptions C33_primitive_roundtrip.

(** Both ways of producing a complete state give a self-consistent one: the energy is kinetic plus internal
    energy and the speed of sound satisfies rho c^2 = gamma p. *)
Theorem C33_self_consistent : forall g, perfect g ->
  (forall w, 0 < p_density w -> 0 <= p_pressure w -> consistent g (CompleteFromPrim g w)) /\
  (forall c, 0 < c_density c -> c_energy c >= kinetic (c_density c) (map (fun m => m / c_density c) (c_momentum c)) ->
     consistent g (CompleteFromCons g c)).
Proof.
  intros g Hg. split.
  - intros w H1 H2. apply from_prim_consistent; auto.
  - intros c H1 H2. apply from_cons_consistent; auto.
Qed.
Print Assumptions C33_self_consistent.

(** Self-consistent complete states are restored from their conservative as well as from their primitive
    variables; hence CompleteFromCons is idempotent and keeps the conservative variables. *)
Theorem C33_complete_roundtrips : forall g q, perfect g -> 0 < density q -> consistent g q ->
  CompleteFromCons g (AsCons q) = q /\ CompleteFromPrim g (PrimFromComplete q) = q.
Proof. intros. apply consistent_unique; auto. Qed.
Print Assumptions C33_complete_roundtrips.

Theorem C33_conservative_roundtrip : forall g c,
  AsCons (CompleteFromCons g c) = c /\
  CompleteFromCons g (AsCons (CompleteFromCons g c)) = CompleteFromCons g c.
Proof. intros g [rho m E]. split; reflexivity. Qed.
Print Assumptions C33_conservative_roundtrip.

(** The internal energy is positive exactly if the pressure is. *)
Theorem C33_positive_pressure : forall g c, perfect g -> 0 < c_density c ->
  (0 < pressure (CompleteFromCons g c) <->
   kinetic (c_density c) (map (fun m => m / c_density c) (c_momentum c)) < c_energy c).
Proof.
  intros g c Hg Hr. unfold CompleteFromCons. cbn [pressure]. rewrite kinetic_energy, perfect_div by (auto; lra).
  destruct Hg as [Hg _]. set (k := kinetic _ _). split; intros H.
  - destruct (Rlt_dec k (c_energy c)) as [|N]; [auto|]. exfalso. nra.
  - apply Rmult_lt_0_compat; lra.
Qed.
Print Assumptions C33_positive_pressure.

(** The masked array versions: an active lane with positive density agrees with the scalar version, an
    inactive lane is zero. *)
Theorem C33_masked_lanes : forall g mask c w,
  CompleteFromCons_masked g mask c =
    (if mask then if Rlt_dec 0 (c_density c) then CompleteFromCons g c
                  else mkComplete 0 (map (fun _ => 0) (c_momentum c)) 0 0 0
     else mkComplete 0 (map (fun _ => 0) (c_momentum c)) 0 0 0) /\
  CompleteFromPrim_masked g mask w =
    (if mask then CompleteFromPrim g w else mkComplete 0 (map (fun _ => 0) (p_velocity w)) 0 0 0).
Proof.
  intros g mask c w. split.
  - unfold CompleteFromCons_masked. destruct mask; [|reflexivity]. destruct (Rlt_dec 0 (c_density c)) as [H|H]; [|reflexivity].
    unfold CompleteFromCons, KineticEnergy_masked, KineticEnergy. destruct (Rlt_dec 0 (c_density c)); [|contradiction].
    rewrite map_id. reflexivity.
  - unfold CompleteFromPrim_masked. destruct mask; [reflexivity|]. rewrite sqrt_0. f_equal. ring.
Qed.
Print Assumptions C33_masked_lanes.

(** Air at density 1.2 moving with velocity (10, -20): the data satisfy the hypotheses. *)
Example C33_example :
  let g := mkGas (7 / 5) (5 / 2) 287 in
  let w := mkPrim (6 / 5) [10; -20] 100000 in
  perfect g /\ 0 < p_density w /\ 0 <= p_pressure w /\ consistent g (CompleteFromPrim g w) /\
  energy (CompleteFromPrim g w) = 250300.
Proof.
  cbv zeta. set (g := mkGas _ _ _). set (w := mkPrim _ _ _).
  assert (Hg : perfect g) by (unfold perfect; cbn; lra).
  split; [exact Hg|]. split; [cbn; lra|]. split; [cbn; lra|]. split; [apply from_prim_consistent; cbn; auto; lra|].
  cbn. unfold KineticEnergy, squaredNorm. cbn. lra.
Qed.

(** ** C34 *)
Theorem C34_reflection : forall q n, length (momentum q) = length n -> unit n ->
  let r := Reflect q n in
  Reflect r n = q /\
  (density r = density q /\ energy r = energy q /\ pressure r = pressure q /\ speed_of_sound r = speed_of_sound q) /\
  kinetic (density r) (map (fun m => m / density r) (momentum r)) = kinetic (density q) (map (fun m => m / density q) (momentum q)) /\
  dot (momentum r) n = - dot (momentum q) n /\
  (forall t, length t = length n -> dot n t = 0 -> dot (momentum r) t = dot (momentum q) t).
Proof.
  intros q n Hl Hu r. unfold r, Reflect. cbn [density energy pressure speed_of_sound momentum].
  split; [|split; [|split; [|split]]].
  - rewrite reflect_twice by auto. destruct q; reflexivity.
  - repeat split.
  - unfold kinetic. f_equal. rewrite !map_map.
    assert (E : forall v, sum (map (fun x => x / density q * (x / density q)) v) = / density q * / density q * squaredNorm v).
    { unfold squaredNorm. induction v as [|x v IH]; cbn; [ring|]. rewrite IH. unfold Rdiv. ring. }
    rewrite !E, reflect_norm by auto. reflexivity.
  - rewrite reflect_dot by auto. unfold unit in Hu. rewrite <- dot_self in Hu. rewrite Hu. ring.
  - intros t Ht H. rewrite reflect_dot by auto. rewrite H. ring.
Qed.
Print Assumptions C34_reflection.

(** The same for primitive and conservative states; reflecting commutes with the conversions. *)
Theorem C34_reflection_commutes : forall g w n, length (p_velocity w) = length n -> unit n ->
  Reflect (CompleteFromPrim g w) n = CompleteFromPrim g (ReflectPrim w n) /\
  ReflectPrim (ReflectPrim w n) n = w /\
  (forall c, length (c_momentum c) = length n ->
     CompleteFromCons g (ReflectCons c n) = Reflect (CompleteFromCons g c) n /\ ReflectCons (ReflectCons c n) n = c).
Proof.
  intros g w n Hl Hu. split; [|split].
  - unfold Reflect, CompleteFromPrim, ReflectPrim. cbn [density energy pressure speed_of_sound momentum p_density p_velocity p_pressure].
    assert (Em : reflect_vector (vscale (p_density w) (p_velocity w)) n = vscale (p_density w) (reflect_vector (p_velocity w) n)).
    { rewrite !reflect_form, dot_scale_l. generalize (dot (p_velocity w) n). clear Hu. revert n Hl.
      unfold vsub, vscale. induction (p_velocity w) as [|x v IH]; intros [|y n] H k; cbn in *; try lia; auto.
      f_equal; [ring|]. apply IH. lia. }
    rewrite Em. f_equal. f_equal. unfold KineticEnergy. f_equal. f_equal. rewrite <- Em. symmetry. apply reflect_norm; auto.
    rewrite vscale_length. auto.
  - destruct w as [rho v p]. unfold ReflectPrim. cbn [p_density p_velocity p_pressure] in *. rewrite reflect_twice by auto. reflexivity.
  - intros c Hc. split.
    + unfold Reflect, CompleteFromCons, ReflectCons. cbn [density energy pressure speed_of_sound momentum c_density c_momentum c_energy].
      unfold KineticEnergy. rewrite reflect_norm by auto. reflexivity.
    + destruct c as [rho m E]. unfold ReflectCons. cbn [c_density c_momentum c_energy] in *. rewrite reflect_twice by auto. reflexivity.
Qed.
Print Assumptions C34_reflection_commutes.

(** Reflection at a wall whose normal is the coordinate axis d: exactly one momentum component changes sign. *)
Theorem C34_axis : forall q n d, length (momentum q) = length n -> (d < length n)%nat ->
  (forall i, nth i n 0 = if Nat.eqb i d then 1 else 0) ->
  forall i, (i < length n)%nat ->
    nth i (momentum (Reflect q n)) 0 = if Nat.eqb i d then - nth i (momentum q) 0 else nth i (momentum q) 0.
Proof.
  intros q n d Hl Hd Hn i Hi. unfold Reflect. cbn [momentum]. rewrite reflect_form, vsub_vscale_nth by lia.
  assert (E : dot (momentum q) n = nth d (momentum q) 0).
  { clear Hi i. revert n d Hl Hd Hn. generalize (momentum q) as m. induction m as [|x m IH]; intros [|y n] [|d] Hl Hd Hn; cbn in *; try lia.
    - pose proof (Hn 0%nat) as H0. cbn in H0. subst y. assert (Z : dot m n = 0); [|lra].
      assert (Hz : forall i, nth i n 0 = 0) by (intros i; specialize (Hn (S i)); exact Hn). clear -Hz.
      revert n Hz. induction m as [|x m IH]; intros [|y n] Hz; cbn; auto. rewrite IH; [|intros i; apply (Hz (S i))]. rewrite (Hz 0%nat : y = 0). ring.
    - pose proof (Hn 0%nat) as H0. cbn in H0. subst y. rewrite (IH n d) by (try lia; intros i; apply (Hn (S i))). ring. }
  rewrite E, Hn. destruct (Nat.eqb_spec i d) as [->|]; ring.
Qed.
Print Assumptions C34_axis.

(** A wall with normal (3/5, 4/5). *)
Example C34_example :
  let q := mkComplete 1 [5; 0] 20 3 2 in
  unit [3 / 5; 4 / 5] /\ length (momentum q) = length [3 / 5; 4 / 5] /\
  momentum (Reflect q [3 / 5; 4 / 5]) = [7 / 5; - (24 / 5)].
Proof.
  cbv zeta. split; [unfold unit; cbn; lra|]. split; [reflexivity|]. cbn. unfold reflect_vector, vsub, vscale. cbn. f_equal; [lra|]. f_equal. lra.
Qed.

(** ** C35 *)

(** Two dimensions, all pairs of unit vectors: MakeRotation(a, b) maps a to b, is orthogonal, has
    determinant one, and MakeRotation(b, a) undoes it. *)
Theorem C35_two_dimensions : forall a b, unit (list2 a) -> unit (list2 b) ->
  let M := MakeRotation2 a b in
  mat_vec (rows2 M) (list2 a) = list2 b /\
  mul_rows (rows2 M) (rows2 M) = identity2 /\ det2 M = 1 /\
  (forall x y, mat_vec (rows2 (MakeRotation2 b a)) (mat_vec (rows2 M) [x; y]) = [x; y]).
Proof. exact rotation2. Qed.
Print Assumptions C35_two_dimensions.

(** Three dimensions, all pairs of unit vectors which are not opposite to each other. *)
Theorem C35_three_dimensions_partial : forall a b, unit (list3 a) -> unit (list3 b) -> list3 a <> map Ropp (list3 b) ->
  let M := MakeRotation3 a b in
  mat_vec (rows3 M) (list3 a) = list3 b /\
  mul_rows (rows3 M) (rows3 M) = identity3 /\ det3 M = 1 /\
  (forall x y z, mat_vec (rows3 (MakeRotation3 b a)) (mat_vec (rows3 M) [x; y; z]) = [x; y; z]).
Proof. exact rotation3. Qed.
Print Assumptions C35_three_dimensions_partial.

(** For opposite vectors the result in three dimensions is never a rotation: it is the point reflection
    with determinant -1. *)
Theorem C35_three_dimensions_refuted : forall a b, list3 a = map Ropp (list3 b) ->
  let M := MakeRotation3 a b in
  det3 M = -1 /\ (forall x y z, mat_vec (rows3 M) [x; y; z] = [- x; - y; - z]).
Proof.
  intros a b H. apply opposite3_spec in H. unfold MakeRotation3. rewrite H. cbv zeta. split.
  - cbn. ring.
  - intros x y z. cbn. f_equal; [ring|]. f_equal; [ring|]. f_equal. ring.
Qed.
Print Assumptions C35_three_dimensions_refuted.

(** Rotating a state with an orthogonal matrix keeps its kinetic energy, so consistent states stay consistent. *)
Theorem C35_rotated_states : forall g q a b, unit (list2 a) -> unit (list2 b) -> (exists x y, momentum q = [x; y]) ->
  let r := Rotate q (rows2 (MakeRotation2 a b)) in
  squaredNorm (momentum r) = squaredNorm (momentum q) /\ (0 < density q -> consistent g q -> consistent g r) /\
  Rotate r (rows2 (MakeRotation2 b a)) = q.
Proof.
  intros g q a b Ha Hb (x & y & Hm) r. unfold r.
  destruct (rotation2 a b Ha Hb) as (_ & H2 & _ & H4).
  assert (N : squaredNorm (momentum (Rotate q (rows2 (MakeRotation2 a b)))) = squaredNorm (momentum q)).
  { destruct (rotation2 b a Hb Ha) as (_ & H2' & _ & _).
    unfold Rotate. cbn [momentum]. rewrite Hm. unfold MakeRotation2 in *.
    assert (T : squaredNorm (mat_vec (rows2 (if opposite2 a b then (-1, 0, (0, -1)) else let '(a0, a1) := a in let '(b0, b1) := b in (a0 * b0 + a1 * b1, - (a0 * b1 - a1 * b0), (a0 * b1 - a1 * b0, a0 * b0 + a1 * b1)))) [x; y]) = squaredNorm [x; y]).
    { destruct (opposite2 a b); [unfold squaredNorm; cbn; ring|]. destruct a as [a0 a1], b as [b0 b1].
      unfold unit in *. cbn in Ha, Hb. unfold squaredNorm. cbn.
      assert (NN : (a0 * a0 + a1 * a1) * (b0 * b0 + b1 * b1) = 1).
      { replace (a0 * a0 + a1 * a1) with 1 by lra. replace (b0 * b0 + b1 * b1) with 1 by lra. ring. }
      transitivity ((a0 * a0 + a1 * a1) * (b0 * b0 + b1 * b1) * (x * x + (y * y + 0))); [ring|]. rewrite NN. ring. }
    exact T. }
  split; [exact N|]. split.
  - intros Hr (He & Hc & Hs). unfold consistent, Rotate in *. cbn [density energy pressure speed_of_sound momentum] in *.
    split; [|auto]. rewrite He. f_equal. rewrite <- !kinetic_energy by lra. unfold KineticEnergy. rewrite N. reflexivity.
  - unfold Rotate. cbn [density energy pressure speed_of_sound momentum]. rewrite Hm, H4. rewrite <- Hm. destruct q; reflexivity.
Qed.
Print Assumptions C35_rotated_states.

(** Non-trivial unit vectors, and two opposite ones. *)
Example C35_example :
  unit (list3 (1 / 3, 2 / 3, 2 / 3)) /\ unit (list3 (2 / 3, -2 / 3, 1 / 3)) /\
  list3 (1 / 3, 2 / 3, 2 / 3) <> map Ropp (list3 (2 / 3, -2 / 3, 1 / 3)) /\
  list3 (1, 0, 0) = map Ropp (list3 (-1, 0, 0)) /\ unit (list2 (3 / 5, 4 / 5)).
Proof.
  unfold unit. cbn. split; [lra|]. split; [lra|]. split; [intros H; injection H; intros; lra|]. split; [|lra].
  f_equal; [lra|]. f_equal; [lra|]. f_equal. lra.
Qed.

(** ** C37 *)

(** For admissible states the argument of the square root is positive, the left signal is slower than the
    right one, each signal encloses the characteristic of its own side, and both flow velocities lie
    strictly between the signals whenever the flow does not converge.
    Missing: strongly converging flows, see [C37_enclosing_refuted]. *)
Theorem C37_ordered_partial : forall g left right d, perfect g -> admissible g left -> admissible g right ->
  let '(sL, sR) := EinfeldtSignals g left right d in
  let uL := nth d (momentum left) 0 / density left in
  let uR := nth d (momentum right) 0 / density right in
  0 < EinfeldtRadicand g left right d /\
  sL < sR /\ sL <= uL - speed_of_sound left /\ uR + speed_of_sound right <= sR /\ sL < uL /\ uR < sR /\
  (uL <= uR -> sL < uR /\ uL < sR).
Proof.
  intros g left right d Hg Hl Hr.
  destruct (EinfeldtSignals g left right d) as [sL sR] eqn:E.
  intros uL uR. pose proof (einfeldt_radicand g left right d Hg Hl Hr) as Hrad.
  assert (HA : 0 < sqrt (EinfeldtRadicand g left right d)) by (apply sqrt_lt_R0; exact Hrad).
  pose proof (sound_positive g left Hg Hl). pose proof (sound_positive g right Hg Hr).
  unfold EinfeldtSignals in E. cbv zeta in E.
  fold uL uR in E. unfold EinfeldtRadicand in HA. cbv zeta in HA. fold uL uR in HA.
  set (roeU := (uL * _ + uR * _) * _) in *. set (A := sqrt ((gamma g - 1) * _)) in *. injection E as <- <-.
  split; [exact Hrad|].
  pose proof (Rmin_l (uL - speed_of_sound left) (roeU - A)). pose proof (Rmin_r (uL - speed_of_sound left) (roeU - A)).
  pose proof (Rmax_l (roeU + A) (uR + speed_of_sound right)). pose proof (Rmax_r (roeU + A) (uR + speed_of_sound right)).
  repeat split; lra.
Qed.
Print Assumptions C37_ordered_partial.

(** In the converging flow of a light fast gas (density 1, velocity 10) running into a heavy gas at rest
    (density 100) the right signal is slower than the left flow velocity. *)
Theorem C37_enclosing_refuted : exists g left right,
  perfect g /\ admissible g left /\ admissible g right /\
  snd (EinfeldtSignals g left right 0) < nth 0 (momentum left) 0 / density left.
Proof.
  exists (mkGas 2 1 1), (mkComplete 1 [10] (50 + 1 / 2) (1 / 2) 1), (mkComplete 100 [0] 50 50 1).
  split; [unfold perfect; cbn; lra|].
  split; [unfold admissible, consistent, kinetic; cbn; lra|]. split; [unfold admissible, consistent, kinetic; cbn; lra|].
  unfold EinfeldtSignals. cbn [snd density momentum energy pressure speed_of_sound nth gamma].
  rewrite sqrt_1. replace (sqrt 100) with 10 by (replace 100 with (10 * 10) by lra; rewrite sqrt_square; lra).
  apply Rmax_lub_lt; [|lra].
  assert (S : sqrt ((2 - 1) * ((((50 + 1 / 2) + 1 / 2) / 1 * 1 + (50 + 50) / 100 * 10) * (1 / (1 + 10)) -
      1 / 2 * ((10 / 1 * 1 + 0 / 100 * 10) * (1 / (1 + 10))) * ((10 / 1 * 1 + 0 / 100 * 10) * (1 / (1 + 10))))) < 3).
  { rewrite <- (sqrt_square 3) by lra. apply sqrt_lt_1; lra. }
  lra.
Qed.
Print Assumptions C37_enclosing_refuted.

(** The hypotheses of C37_ordered_partial hold for the states above as well as in a rarefaction. *)
Example C37_example :
  let g := mkGas 2 1 1 in
  admissible g (mkComplete 1 [-3] 5 (1 / 2) 1) /\ admissible g (mkComplete 2 [4] 5 1 1) /\
  nth 0 [-3] 0 / 1 <= nth 0 [4] 0 / 2.
Proof. cbv zeta. unfold admissible, consistent, kinetic. cbn. lra. Qed.
