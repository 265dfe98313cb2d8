(** Lemmas for C75-C78: the waves put together. *)
From Coq Require Import List Reals Lia Lra Psatz Bool.
From Verif Require Import GasModel GasSpec GasProofs NewtonModel RiemannModel RiemannSpec RiemannProofs RiemannProofs2.
Import ListNotations.
Local Open Scope R_scope.

(** ** Local behaviour *)

Definition before (x : R) (P : R -> Prop) : Prop := exists a, a < x /\ forall y, a < y < x -> P y.
Definition after (x : R) (P : R -> Prop) : Prop := exists b, x < b /\ forall y, x < y < b -> P y.
Definition near (x : R) (P : R -> Prop) : Prop := exists a b, a < x < b /\ forall y, a < y < b -> P y.

Lemma conserved_near d w v x : near x (fun y => w y = v y) -> conserved_at d v x -> conserved_at d w x.
Proof.
  intros (a & b & Hab & E) H c. destruct (H c) as (dq & df & D1 & D2 & R1). exists dq, df.
  assert (forall (F : Complete -> R) l, derivable_pt_lim (fun y => F (v y)) x l -> derivable_pt_lim (fun y => F (w y)) x l) as K.
  { intros F l D e He. destruct (D e He) as [dl Hdl].
    assert (0 < Rmin dl (Rmin (x - a) (b - x))) as P by (repeat apply Rmin_glb_lt; try lra; apply cond_pos).
    exists (mkposreal _ P). intros h Hh Hlt. cbn in Hlt.
    pose proof (Rmin_l dl (Rmin (x - a) (b - x))). pose proof (Rmin_r dl (Rmin (x - a) (b - x))).
    pose proof (Rmin_l (x - a) (b - x)). pose proof (Rmin_r (x - a) (b - x)).
    assert (-h <= Rabs h) by (rewrite <- Rabs_Ropp; apply Rle_abs). pose proof (Rle_abs h).
    rewrite (E x), (E (x + h)) by lra. apply Hdl; [exact Hh | lra]. }
  split; [apply (K (amount c)); exact D1|]. split; [apply (K (fun q => transport c q d)); exact D2 | exact R1].
Qed.

Lemma derivable_limit f x l P : derivable_pt_lim f x l -> limit1_in f P (f x) x.
Proof.
  intros D e He.
  assert (derivable_pt f x) as Df by (exists l; exact D).
  destruct (derivable_continuous_pt f x Df e He) as (al & Hal & H). exists al. split; [exact Hal|].
  intros y [_ Hy]. destruct (Req_dec y x) as [-> | N].
  - cbn. unfold R_dist. rewrite Rminus_diag_eq, Rabs_R0 by reflexivity. exact He.
  - apply H. split; [split; [exact I | congruence] | exact Hy].
Qed.

Lemma limit_before w v F x l : before x (fun y => w y = v y) ->
  derivable_pt_lim (fun y => F (v y)) x l -> left_limit (fun y => F (w y)) x (F (v x : Complete) : R).
Proof.
  intros (a & Ha & E) D e He. destruct (derivable_limit _ _ _ (fun y => y < x) D e He) as (al & Hal & H).
  exists (Rmin al (x - a)). split; [apply Rmin_glb_lt; lra|]. intros y [Hy Hd].
  pose proof (Rmin_l al (x - a)). pose proof (Rmin_r al (x - a)).
  cbn in Hd |- *. unfold R_dist in Hd. assert (x - y <= Rabs (y - x)) by (rewrite Rabs_minus_sym; apply Rle_abs).
  rewrite E by lra. apply H. split; [exact Hy|]. cbn. unfold R_dist. lra.
Qed.

Lemma limit_after w v F x l : after x (fun y => w y = v y) ->
  derivable_pt_lim (fun y => F (v y)) x l -> right_limit (fun y => F (w y)) x (F (v x : Complete) : R).
Proof.
  intros (a & Ha & E) D e He. destruct (derivable_limit _ _ _ (fun y => x < y) D e He) as (al & Hal & H).
  exists (Rmin al (a - x)). split; [apply Rmin_glb_lt; lra|]. intros y [Hy Hd].
  pose proof (Rmin_l al (a - x)). pose proof (Rmin_r al (a - x)).
  cbn in Hd |- *. unfold R_dist in Hd. assert (y - x <= Rabs (y - x)) by (apply Rle_abs).
  rewrite E by lra. apply H. split; [exact Hy|]. cbn. unfold R_dist. lra.
Qed.

Lemma jump_intro g d w v1 v2 x :
  before x (fun y => w y = v1 y) -> after x (fun y => w y = v2 y) ->
  conserved_at d v1 x -> conserved_at d v2 x -> admissible g (v1 x) -> admissible g (v2 x) ->
  (forall c, transport c (v2 x) d - transport c (v1 x) d = x * (amount c (v2 x) - amount c (v1 x))) ->
  x * (entropy g (v2 x) - entropy g (v1 x)) <= entropy g (v2 x) * speed (v2 x) d - entropy g (v1 x) * speed (v1 x) d ->
  w x = v1 x \/ w x = v2 x -> jump_at g d w x.
Proof.
  intros B A C1 C2 A1 A2 RH En Hw. exists (v1 x), (v2 x). split; [exact A1|]. split; [exact A2|]. split; [|split; [|auto]].
  - intros c. destruct (C1 c) as (dq & _ & D & _). exact (limit_before w v1 (amount c) x dq B D).
  - intros c. destruct (C2 c) as (dq & _ & D & _). exact (limit_after w v2 (amount c) x dq A D).
Qed.

Lemma jump_continuous g d w v1 v2 x :
  before x (fun y => w y = v1 y) -> after x (fun y => w y = v2 y) ->
  conserved_at d v1 x -> conserved_at d v2 x -> admissible g (v1 x) -> v1 x = v2 x -> w x = v1 x -> jump_at g d w x.
Proof.
  intros B A C1 C2 A1 E Hw. apply (jump_intro g d w v1 v2 x); auto.
  - rewrite <- E. exact A1.
  - intros c. rewrite E. ring.
  - rewrite E. lra.
Qed.

Lemma constant_state g q d x : perfect g -> admissible g q -> (d < length (momentum q))%nat -> conserved_at d (fun _ => q) x.
Proof.
  intros Hg Hq Hd. rewrite <- (prim_self g q d Hg Hd Hq). apply constant_solution; auto.
  destruct Hq. assumption.
Qed.

(** ** The left wave *)

Section Left.
Variables (g : gas) (l : Complete) (d : nat) (pM uM : R).
Hypothesis Hg : perfect g.
Hypothesis Hl : admissible g l.
Hypothesis Hd : (d < length (momentum l))%nat.
Hypothesis HpM : 0 < pM.
Hypothesis HuM : uM = velocity l d - 1 * phi g l pM.

Definition left_wave (x : R) : Complete := match LeftSide g l d pM uM x with Some q => q | None => l end.
Definition left_middle : Complete := if Rlt_dec (pressure l) pM then shocked g l d pM uM else rarefied g l d pM uM.
Definition left_breaks : list R :=
  if Rlt_dec (pressure l) pM then [velocity l d - 1 * signal_distance g l pM]
  else [velocity l d - 1 * speed_of_sound l; uM - 1 * (speed_of_sound l * sound_ratio g l pM)].

Lemma one_sign : 1 = 1 \/ 1 = -1.
Proof. left. reflexivity. Qed.

Lemma left_shock x : pressure l < pM ->
  LeftSide g l d pM uM x = Some (if Rlt_dec (velocity l d - 1 * signal_distance g l pM) x then shocked g l d pM uM else l).
Proof.
  intros H. unfold LeftSide, signal_distance. cbv zeta. destruct (Rlt_dec (pressure l) pM) as [_|N]; [|lra].
  rewrite Rmult_1_l. match goal with |- context [Rlt_dec ?a x] => destruct (Rlt_dec a x) end; reflexivity.
Qed.

Lemma left_rarefaction x : pM <= pressure l ->
  LeftSide g l d pM uM x = Some (if Rlt_dec x (velocity l d - 1 * speed_of_sound l) then l
                                 else if Rlt_dec (uM - 1 * (speed_of_sound l * sound_ratio g l pM)) x
                                      then rarefied g l d pM uM else fan g l d 1 x).
Proof.
  intros H. unfold LeftSide. cbv zeta. destruct (Rlt_dec (pressure l) pM) as [L|_]; [lra|].
  fold (sound_ratio g l pM). rewrite !Rmult_1_l.
  destruct (Rlt_dec x (velocity l d - speed_of_sound l)); [reflexivity|].
  destruct (Rlt_dec (uM - speed_of_sound l * sound_ratio g l pM) x) as [T|T]; [reflexivity|].
  assert (sound_ratio g l pM <= fan_ratio g l d 1 x) as F.
  { apply (fan_ratio_between g l d 1 Hg Hl one_sign pM uM x (conj HpM H) HuM). lra. }
  assert (0 < sound_ratio g l pM) as P by apply Rpower_pos.
  unfold fan_ratio in F. rewrite Rmult_1_l in F.
  unfold opow. destruct (Rlt_dec 0 _) as [Q|Q]; [|exfalso; apply Q; lra].
  unfold fan, fan_density, fan_velocity, fan_pressure, fan_ratio. rewrite !Rmult_1_l. reflexivity.
Qed.

Lemma left_some x : LeftSide g l d pM uM x = Some (left_wave x).
Proof.
  unfold left_wave. destruct (Rlt_dec (pressure l) pM) as [L|L].
  - rewrite left_shock by exact L. reflexivity.
  - rewrite left_rarefaction by lra. reflexivity.
Qed.

Lemma left_wave_shock x : pressure l < pM ->
  left_wave x = if Rlt_dec (velocity l d - 1 * signal_distance g l pM) x then shocked g l d pM uM else l.
Proof. intros H. unfold left_wave. rewrite left_shock by exact H. reflexivity. Qed.

Lemma left_wave_rarefaction x : pM <= pressure l ->
  left_wave x = if Rlt_dec x (velocity l d - 1 * speed_of_sound l) then l
                else if Rlt_dec (uM - 1 * (speed_of_sound l * sound_ratio g l pM)) x
                     then rarefied g l d pM uM else fan g l d 1 x.
Proof. intros H. unfold left_wave. rewrite left_rarefaction by exact H. reflexivity. Qed.

Lemma left_middle_admissible : admissible g left_middle.
Proof.
  unfold left_middle. destruct (Rlt_dec (pressure l) pM).
  - apply shocked_admissible; auto.
  - apply rarefied_admissible; auto.
Qed.

Lemma left_middle_prim : exists rho, 0 < rho /\ left_middle = from_prim g rho uM pM l d.
Proof.
  pose proof left_middle_admissible as A. unfold left_middle in *. destruct (Rlt_dec (pressure l) pM).
  - exists (shock_density g l pM). split; [exact (proj1 A) | reflexivity].
  - exists (density l * Rpower (pM / pressure l) (1 / gamma g)). split; [exact (proj1 A) | reflexivity].
Qed.

Lemma left_middle_constant x : conserved_at d (fun _ => left_middle) x.
Proof. destruct left_middle_prim as (rho & P & ->). apply constant_solution; auto. Qed.

Lemma left_wave_admissible x : admissible g (left_wave x) /\ length (momentum (left_wave x)) = length (momentum l).
Proof.
  destruct (Rlt_dec (pressure l) pM) as [L|L].
  - rewrite left_wave_shock by exact L. destruct (Rlt_dec _ x); [|auto]. split; [apply shocked_admissible; auto|].
    apply prim_length.
  - rewrite left_wave_rarefaction by lra. destruct (Rlt_dec x _); [auto|]. destruct (Rlt_dec _ x).
    + split; [apply rarefied_admissible; auto | apply prim_length].
    + split; [apply fan_admissible; auto | apply prim_length].
Qed.

Lemma left_breaks_before x : In x left_breaks -> x < uM.
Proof.
  unfold left_breaks. destruct (Rlt_dec (pressure l) pM) as [L|L]; cbn [In].
  - intros [<- | []]. pose proof (shock_before g l d 1 Hg Hl one_sign pM uM L HuM). lra.
  - assert (0 < pM <= pressure l) as Hp by lra.
    pose proof (head_tail g l d 1 Hg Hl one_sign pM uM Hp HuM) as (H1 & _ & H2).
    intros [<- | [<- | []]]; lra.
Qed.

Lemma left_near_contact : exists a, a < uM /\ forall y, a < y <= uM -> left_wave y = left_middle.
Proof.
  unfold left_middle. destruct (Rlt_dec (pressure l) pM) as [L|L].
  - pose proof (shock_before g l d 1 Hg Hl one_sign pM uM L HuM).
    exists (velocity l d - 1 * signal_distance g l pM). split; [lra|]. intros y Hy. rewrite left_wave_shock by exact L.
    destruct (Rlt_dec _ y); [reflexivity|lra].
  - assert (0 < pM <= pressure l) as Hp by lra.
    pose proof (head_tail g l d 1 Hg Hl one_sign pM uM Hp HuM) as (H1 & _ & H2).
    exists (uM - 1 * (speed_of_sound l * sound_ratio g l pM)). split; [lra|]. intros y Hy.
    rewrite left_wave_rarefaction by lra. destruct (Rlt_dec y _); [lra|]. destruct (Rlt_dec _ y); [reflexivity|lra].
Qed.

Lemma left_outside x : x < velocity l d - 1 * signal_distance g l pM -> left_wave x = l.
Proof.
  intros H. destruct (Rlt_dec (pressure l) pM) as [L|L].
  - rewrite left_wave_shock by exact L. destruct (Rlt_dec _ x); [lra|reflexivity].
  - unfold signal_distance in H. destruct (Rlt_dec (pressure l) pM); [lra|]. rewrite left_wave_rarefaction by lra.
    destruct (Rlt_dec x _); [reflexivity|lra].
Qed.

Lemma left_smooth x : x < uM -> ~ In x left_breaks -> conserved_at d left_wave x.
Proof.
  intros Hx. unfold left_breaks. destruct (Rlt_dec (pressure l) pM) as [L|L]; cbn [In]; intros N.
  - set (S := velocity l d - 1 * signal_distance g l pM) in *.
    destruct (Rlt_dec S x) as [l1|l1].
    + apply (conserved_near d _ (fun _ => left_middle)); [|apply left_middle_constant].
      exists S, (x + 1). split; [lra|]. intros y Hy. rewrite left_wave_shock by exact L. fold S.
      unfold left_middle. destruct (Rlt_dec S y); [|lra]. destruct (Rlt_dec (pressure l) pM); [reflexivity|lra].
    + assert (x < S) by (destruct (Rtotal_order x S) as [?|[?|?]]; [auto | exfalso; apply N; left; lra | lra]).
      apply (conserved_near d _ (fun _ => l)); [|apply (constant_state g); auto].
      exists (x - 1), S. split; [lra|]. intros y Hy. rewrite left_wave_shock by exact L. fold S.
      destruct (Rlt_dec S y); [lra|reflexivity].
  - assert (0 < pM <= pressure l) as Hp by lra.
    pose proof (head_tail g l d 1 Hg Hl one_sign pM uM Hp HuM) as (H1 & _ & H2).
    set (H := velocity l d - 1 * speed_of_sound l) in *.
    set (T := uM - 1 * (speed_of_sound l * sound_ratio g l pM)) in *.
    assert (H <> x /\ T <> x) as [N1 N2] by (split; intros E; apply N; auto).
    destruct (Rlt_dec x H) as [l1|l1].
    + apply (conserved_near d _ (fun _ => l)); [|apply (constant_state g); auto].
      exists (x - 1), H. split; [lra|]. intros y Hy. rewrite left_wave_rarefaction by lra. fold H T.
      destruct (Rlt_dec y H); [reflexivity|lra].
    + destruct (Rlt_dec T x) as [l2|l2].
      * apply (conserved_near d _ (fun _ => left_middle)); [|apply left_middle_constant].
        exists T, (x + 1). split; [lra|]. intros y Hy. rewrite left_wave_rarefaction by lra. fold H T.
        unfold left_middle. destruct (Rlt_dec (pressure l) pM); [lra|].
        destruct (Rlt_dec y H); [lra|]. destruct (Rlt_dec T y); [reflexivity|lra].
      * apply (conserved_near d _ (fan g l d 1)).
        -- exists H, T. split; [lra|]. intros y Hy. rewrite left_wave_rarefaction by lra. fold H T.
           destruct (Rlt_dec y H); [lra|]. destruct (Rlt_dec T y); [lra|reflexivity].
        -- apply fan_smooth; auto. pose proof (Rpower_pos (pM / pressure l) ((gamma g - 1) / (2 * gamma g))) as P.
           apply Rlt_le_trans with (1 := P).
           apply (fan_ratio_between g l d 1 Hg Hl one_sign pM uM x Hp HuM). fold T. lra.
Qed.

Lemma left_jump x : In x left_breaks -> jump_at g d left_wave x.
Proof.
  unfold left_breaks. destruct (Rlt_dec (pressure l) pM) as [L|L]; cbn [In].
  - intros [<- | []]. set (S := velocity l d - 1 * signal_distance g l pM).
    apply (jump_intro g d _ (fun _ => l) (fun _ => shocked g l d pM uM)).
    + exists (S - 1). split; [lra|]. intros y Hy. rewrite left_wave_shock by exact L. fold S. destruct (Rlt_dec S y); [lra|reflexivity].
    + exists (S + 1). split; [lra|]. intros y Hy. rewrite left_wave_shock by exact L. fold S. destruct (Rlt_dec S y); [reflexivity|lra].
    + apply (constant_state g); auto.
    + apply (constant_state g); auto; [apply shocked_admissible; auto|]. unfold shocked. rewrite prim_length. exact Hd.
    + exact Hl.
    + apply shocked_admissible; auto.
    + apply (shock_jump g l d 1 Hg Hl Hd one_sign); auto.
    + pose proof (shock_produces g l d 1 Hg Hl Hd one_sign pM uM L HuM) as P. cbv zeta in P. fold S in P. lra.
    + left. rewrite left_wave_shock by exact L. fold S. destruct (Rlt_dec S S); [lra|reflexivity].
  - assert (0 < pM <= pressure l) as Hp by lra.
    pose proof (head_tail g l d 1 Hg Hl one_sign pM uM Hp HuM) as (H1 & H1' & H2).
    pose proof (fan_head g l d 1 Hg Hl Hd one_sign) as FH.
    pose proof (fan_tail g l d 1 Hg Hl one_sign pM uM Hp HuM) as FT.
    assert (forall x, x <= uM - 1 * (speed_of_sound l * sound_ratio g l pM) -> conserved_at d (fan g l d 1) x) as FS.
    { intros y Hy. apply fan_smooth; auto. pose proof (Rpower_pos (pM / pressure l) ((gamma g - 1) / (2 * gamma g))) as P.
      apply Rlt_le_trans with (1 := P). apply (fan_ratio_between g l d 1 Hg Hl one_sign pM uM y Hp HuM). lra. }
    set (H := velocity l d - 1 * speed_of_sound l) in *.
    set (T := uM - 1 * (speed_of_sound l * sound_ratio g l pM)) in *.
    pose proof left_middle_constant as MC. pose proof left_middle_admissible as MA. unfold left_middle in MC, MA.
    destruct (Rlt_dec (pressure l) pM); [lra|].
    intros Hx. destruct (Rlt_dec H T) as [HT|HT].
    + destruct Hx as [<- | [<- | []]].
      * apply (jump_continuous g d _ (fun _ => l) (fan g l d 1)).
        -- exists (H - 1). split; [lra|]. intros y Hy. rewrite left_wave_rarefaction by lra. fold H T. destruct (Rlt_dec y H); [reflexivity|lra].
        -- exists T. split; [lra|]. intros y Hy. rewrite left_wave_rarefaction by lra. fold H T.
           destruct (Rlt_dec y H); [lra|]. destruct (Rlt_dec T y); [lra|reflexivity].
        -- apply (constant_state g); auto.
        -- apply FS. lra.
        -- exact Hl.
        -- symmetry. exact FH.
        -- rewrite left_wave_rarefaction by lra. fold H T. destruct (Rlt_dec H H); [lra|]. destruct (Rlt_dec T H); [lra|exact FH].
      * apply (jump_continuous g d _ (fan g l d 1) (fun _ => rarefied g l d pM uM)).
        -- exists H. split; [lra|]. intros y Hy. rewrite left_wave_rarefaction by lra. fold H T.
           destruct (Rlt_dec y H); [lra|]. destruct (Rlt_dec T y); [lra|reflexivity].
        -- exists (T + 1). split; [lra|]. intros y Hy. rewrite left_wave_rarefaction by lra. fold H T.
           destruct (Rlt_dec y H); [lra|]. destruct (Rlt_dec T y); [reflexivity|lra].
        -- apply FS. lra.
        -- apply MC.
        -- apply fan_admissible; auto.
        -- exact FT.
        -- rewrite left_wave_rarefaction by lra. fold H T. destruct (Rlt_dec T H); [lra|]. destruct (Rlt_dec T T); [lra|reflexivity].
    + assert (H = T) as E by lra. assert (x = T) as -> by (destruct Hx as [<- | [<- | []]]; lra).
      rewrite E in FH. assert (rarefied g l d pM uM = l) as M by congruence.
      apply (jump_continuous g d _ (fun _ => l) (fun _ => rarefied g l d pM uM)).
      * exists (T - 1). split; [lra|]. intros y Hy. rewrite left_wave_rarefaction by lra. fold H T. destruct (Rlt_dec y H); [reflexivity|lra].
      * exists (T + 1). split; [lra|]. intros y Hy. rewrite left_wave_rarefaction by lra. fold H T.
        destruct (Rlt_dec y H); [lra|]. destruct (Rlt_dec T y); [reflexivity|lra].
      * apply (constant_state g); auto.
      * apply MC.
      * exact Hl.
      * congruence.
      * rewrite left_wave_rarefaction by lra. fold H T. destruct (Rlt_dec T H); [reflexivity|]. destruct (Rlt_dec T T); congruence.
Qed.
End Left.

(** ** The right wave *)

Section Right.
Variables (g : gas) (r : Complete) (d : nat) (pM uM : R).
Hypothesis Hg : perfect g.
Hypothesis Hr : admissible g r.
Hypothesis Hd : (d < length (momentum r))%nat.
Hypothesis HpM : 0 < pM.
Hypothesis HuM : uM = velocity r d - -1 * phi g r pM.

Definition right_wave (x : R) : Complete := match RightSide g r d pM uM x with Some q => q | None => r end.
Definition right_middle : Complete := if Rlt_dec (pressure r) pM then shocked g r d pM uM else rarefied g r d pM uM.
Definition right_breaks : list R :=
  if Rlt_dec (pressure r) pM then [velocity r d - -1 * signal_distance g r pM]
  else [velocity r d - -1 * speed_of_sound r; uM - -1 * (speed_of_sound r * sound_ratio g r pM)].

Lemma minus_sign : -1 = 1 \/ -1 = -1.
Proof. right. reflexivity. Qed.

Lemma right_shock x : pressure r < pM ->
  RightSide g r d pM uM x = Some (if Rlt_dec x (velocity r d - -1 * signal_distance g r pM) then shocked g r d pM uM else r).
Proof.
  intros H. unfold RightSide, signal_distance. cbv zeta. destruct (Rlt_dec (pressure r) pM) as [_|N]; [|lra].
  match goal with |- context [Rlt_dec x (velocity r d - -1 * ?a)] =>
    replace (velocity r d - -1 * a) with (velocity r d + a) by ring end.
  match goal with |- context [Rlt_dec x ?a] => destruct (Rlt_dec x a) end; reflexivity.
Qed.

Lemma right_rarefaction x : pM <= pressure r ->
  RightSide g r d pM uM x = Some (if Rle_dec (velocity r d - -1 * speed_of_sound r) x then r
                                 else if Rle_dec x (uM - -1 * (speed_of_sound r * sound_ratio g r pM))
                                      then rarefied g r d pM uM else fan g r d (-1) x).
Proof.
  intros H. unfold RightSide. cbv zeta. destruct (Rlt_dec (pressure r) pM) as [L|_]; [lra|].
  fold (sound_ratio g r pM).
  replace (velocity r d - -1 * speed_of_sound r) with (velocity r d + speed_of_sound r) by ring.
  replace (uM - -1 * (speed_of_sound r * sound_ratio g r pM)) with (uM + speed_of_sound r * sound_ratio g r pM) by ring.
  destruct (Rle_dec (velocity r d + speed_of_sound r) x); [reflexivity|].
  destruct (Rle_dec x (uM + speed_of_sound r * sound_ratio g r pM)) as [T|T]; [reflexivity|].
  assert (sound_ratio g r pM <= fan_ratio g r d (-1) x) as F.
  { apply (fan_ratio_between g r d (-1) Hg Hr minus_sign pM uM x (conj HpM H) HuM). lra. }
  assert (0 < sound_ratio g r pM) as P by apply Rpower_pos.
  assert (fan_ratio g r d (-1) x = 2 / (gamma g + 1) - (gamma g - 1) / (gamma g + 1) * (velocity r d - x) / speed_of_sound r) as E
    by (unfold fan_ratio; ring).
  rewrite <- E. unfold opow. destruct (Rlt_dec 0 _) as [Q|Q]; [|exfalso; apply Q; lra].
  unfold fan, fan_density, fan_velocity, fan_pressure.
  replace (-1 * speed_of_sound r) with (- speed_of_sound r) by ring. reflexivity.
Qed.

Lemma right_some x : RightSide g r d pM uM x = Some (right_wave x).
Proof.
  unfold right_wave. destruct (Rlt_dec (pressure r) pM) as [L|L].
  - rewrite right_shock by exact L. reflexivity.
  - rewrite right_rarefaction by lra. reflexivity.
Qed.

Lemma right_wave_shock x : pressure r < pM ->
  right_wave x = if Rlt_dec x (velocity r d - -1 * signal_distance g r pM) then shocked g r d pM uM else r.
Proof. intros H. unfold right_wave. rewrite right_shock by exact H. reflexivity. Qed.

Lemma right_wave_rarefaction x : pM <= pressure r ->
  right_wave x = if Rle_dec (velocity r d - -1 * speed_of_sound r) x then r
                 else if Rle_dec x (uM - -1 * (speed_of_sound r * sound_ratio g r pM))
                      then rarefied g r d pM uM else fan g r d (-1) x.
Proof. intros H. unfold right_wave. rewrite right_rarefaction by exact H. reflexivity. Qed.

Lemma right_middle_admissible : admissible g right_middle.
Proof.
  unfold right_middle. destruct (Rlt_dec (pressure r) pM).
  - apply shocked_admissible; auto.
  - apply rarefied_admissible; auto.
Qed.

Lemma right_middle_prim : exists rho, 0 < rho /\ right_middle = from_prim g rho uM pM r d.
Proof.
  pose proof right_middle_admissible as A. unfold right_middle in *. destruct (Rlt_dec (pressure r) pM).
  - exists (shock_density g r pM). split; [exact (proj1 A) | reflexivity].
  - exists (density r * Rpower (pM / pressure r) (1 / gamma g)). split; [exact (proj1 A) | reflexivity].
Qed.

Lemma right_middle_constant x : conserved_at d (fun _ => right_middle) x.
Proof. destruct right_middle_prim as (rho & P & ->). apply constant_solution; auto. Qed.

Lemma right_wave_admissible x : admissible g (right_wave x) /\ length (momentum (right_wave x)) = length (momentum r).
Proof.
  destruct (Rlt_dec (pressure r) pM) as [L|L].
  - rewrite right_wave_shock by exact L. destruct (Rlt_dec x _); [|auto]. split; [apply shocked_admissible; auto|].
    apply prim_length.
  - rewrite right_wave_rarefaction by lra. destruct (Rle_dec _ x); [auto|]. destruct (Rle_dec x _).
    + split; [apply rarefied_admissible; auto | apply prim_length].
    + split; [apply fan_admissible; auto | apply prim_length].
Qed.

Lemma right_breaks_after x : In x right_breaks -> uM < x.
Proof.
  unfold right_breaks. destruct (Rlt_dec (pressure r) pM) as [L|L]; cbn [In].
  - intros [<- | []]. pose proof (shock_before g r d (-1) Hg Hr minus_sign pM uM L HuM). lra.
  - assert (0 < pM <= pressure r) as Hp by lra.
    pose proof (head_tail g r d (-1) Hg Hr minus_sign pM uM Hp HuM) as (H1 & _ & H2).
    intros [<- | [<- | []]]; lra.
Qed.

Lemma right_near_contact : exists a, uM < a /\ forall y, uM <= y < a -> right_wave y = right_middle.
Proof.
  unfold right_middle. destruct (Rlt_dec (pressure r) pM) as [L|L].
  - pose proof (shock_before g r d (-1) Hg Hr minus_sign pM uM L HuM).
    exists (velocity r d - -1 * signal_distance g r pM). split; [lra|]. intros y Hy. rewrite right_wave_shock by exact L.
    destruct (Rlt_dec y _); [reflexivity|lra].
  - assert (0 < pM <= pressure r) as Hp by lra.
    pose proof (head_tail g r d (-1) Hg Hr minus_sign pM uM Hp HuM) as (H1 & _ & H2).
    exists (uM - -1 * (speed_of_sound r * sound_ratio g r pM)). split; [lra|]. intros y Hy.
    rewrite right_wave_rarefaction by lra. destruct (Rle_dec _ y); [lra|]. destruct (Rle_dec y _); [reflexivity|lra].
Qed.

Lemma right_outside x : velocity r d - -1 * signal_distance g r pM <= x -> right_wave x = r.
Proof.
  intros H. destruct (Rlt_dec (pressure r) pM) as [L|L].
  - rewrite right_wave_shock by exact L. destruct (Rlt_dec x _); [lra|reflexivity].
  - unfold signal_distance in H. destruct (Rlt_dec (pressure r) pM); [lra|]. rewrite right_wave_rarefaction by lra.
    destruct (Rle_dec _ x); [reflexivity|lra].
Qed.

Lemma right_smooth x : uM < x -> ~ In x right_breaks -> conserved_at d right_wave x.
Proof.
  intros Hx. unfold right_breaks. destruct (Rlt_dec (pressure r) pM) as [L|L]; cbn [In]; intros N.
  - set (S := velocity r d - -1 * signal_distance g r pM) in *.
    destruct (Rlt_dec x S) as [l1|l1].
    + apply (conserved_near d _ (fun _ => right_middle)); [|apply right_middle_constant].
      exists (x - 1), S. split; [lra|]. intros y Hy. rewrite right_wave_shock by exact L. fold S.
      unfold right_middle. destruct (Rlt_dec y S); [|lra]. destruct (Rlt_dec (pressure r) pM); [reflexivity|lra].
    + assert (S < x) by (destruct (Rtotal_order x S) as [?|[?|?]]; [lra | exfalso; apply N; left; lra | lra]).
      apply (conserved_near d _ (fun _ => r)); [|apply (constant_state g); auto].
      exists S, (x + 1). split; [lra|]. intros y Hy. rewrite right_wave_shock by exact L. fold S.
      destruct (Rlt_dec y S); [lra|reflexivity].
  - assert (0 < pM <= pressure r) as Hp by lra.
    pose proof (head_tail g r d (-1) Hg Hr minus_sign pM uM Hp HuM) as (H1 & _ & H2).
    set (H := velocity r d - -1 * speed_of_sound r) in *.
    set (T := uM - -1 * (speed_of_sound r * sound_ratio g r pM)) in *.
    assert (H <> x /\ T <> x) as [N1 N2] by (split; intros E; apply N; auto).
    destruct (Rlt_dec H x) as [l1|l1].
    + apply (conserved_near d _ (fun _ => r)); [|apply (constant_state g); auto].
      exists H, (x + 1). split; [lra|]. intros y Hy. rewrite right_wave_rarefaction by lra. fold H T.
      destruct (Rle_dec H y); [reflexivity|lra].
    + destruct (Rlt_dec x T) as [l2|l2].
      * apply (conserved_near d _ (fun _ => right_middle)); [|apply right_middle_constant].
        exists (x - 1), T. split; [lra|]. intros y Hy. rewrite right_wave_rarefaction by lra. fold H T.
        unfold right_middle. destruct (Rlt_dec (pressure r) pM); [lra|].
        destruct (Rle_dec H y); [lra|]. destruct (Rle_dec y T); [reflexivity|lra].
      * apply (conserved_near d _ (fan g r d (-1))).
        -- exists T, H. split; [lra|]. intros y Hy. rewrite right_wave_rarefaction by lra. fold H T.
           destruct (Rle_dec H y); [lra|]. destruct (Rle_dec y T); [lra|reflexivity].
        -- apply fan_smooth; auto. pose proof (Rpower_pos (pM / pressure r) ((gamma g - 1) / (2 * gamma g))) as P.
           apply Rlt_le_trans with (1 := P).
           apply (fan_ratio_between g r d (-1) Hg Hr minus_sign pM uM x Hp HuM). fold T. lra.
Qed.

Lemma right_jump x : In x right_breaks -> jump_at g d right_wave x.
Proof.
  unfold right_breaks. destruct (Rlt_dec (pressure r) pM) as [L|L]; cbn [In].
  - intros [<- | []]. set (S := velocity r d - -1 * signal_distance g r pM).
    apply (jump_intro g d _ (fun _ => shocked g r d pM uM) (fun _ => r)).
    + exists (S - 1). split; [lra|]. intros y Hy. rewrite right_wave_shock by exact L. fold S. destruct (Rlt_dec y S); [reflexivity|lra].
    + exists (S + 1). split; [lra|]. intros y Hy. rewrite right_wave_shock by exact L. fold S. destruct (Rlt_dec y S); [lra|reflexivity].
    + apply (constant_state g); auto; [apply shocked_admissible; auto|]. unfold shocked. rewrite prim_length. exact Hd.
    + apply (constant_state g); auto.
    + apply shocked_admissible; auto.
    + exact Hr.
    + intros c. pose proof (shock_jump g r d (-1) Hg Hr Hd minus_sign pM uM L HuM c) as P. fold S in P. lra.
    + pose proof (shock_produces g r d (-1) Hg Hr Hd minus_sign pM uM L HuM) as P. cbv zeta in P. fold S in P. lra.
    + right. rewrite right_wave_shock by exact L. fold S. destruct (Rlt_dec S S); [lra|reflexivity].
  - assert (0 < pM <= pressure r) as Hp by lra.
    pose proof (head_tail g r d (-1) Hg Hr minus_sign pM uM Hp HuM) as (H1 & H1' & H2).
    pose proof (fan_head g r d (-1) Hg Hr Hd minus_sign) as FH.
    pose proof (fan_tail g r d (-1) Hg Hr minus_sign pM uM Hp HuM) as FT.
    assert (forall x, uM - -1 * (speed_of_sound r * sound_ratio g r pM) <= x -> conserved_at d (fan g r d (-1)) x) as FS.
    { intros y Hy. apply fan_smooth; auto. pose proof (Rpower_pos (pM / pressure r) ((gamma g - 1) / (2 * gamma g))) as P.
      apply Rlt_le_trans with (1 := P). apply (fan_ratio_between g r d (-1) Hg Hr minus_sign pM uM y Hp HuM). lra. }
    set (H := velocity r d - -1 * speed_of_sound r) in *.
    set (T := uM - -1 * (speed_of_sound r * sound_ratio g r pM)) in *.
    pose proof right_middle_constant as MC. pose proof right_middle_admissible as MA. unfold right_middle in MC, MA.
    destruct (Rlt_dec (pressure r) pM); [lra|].
    intros Hx. destruct (Rlt_dec T H) as [HT|HT].
    + destruct Hx as [<- | [<- | []]].
      * apply (jump_continuous g d _ (fan g r d (-1)) (fun _ => r)).
        -- exists T. split; [lra|]. intros y Hy. rewrite right_wave_rarefaction by lra. fold H T.
           destruct (Rle_dec H y); [lra|]. destruct (Rle_dec y T); [lra|reflexivity].
        -- exists (H + 1). split; [lra|]. intros y Hy. rewrite right_wave_rarefaction by lra. fold H T. destruct (Rle_dec H y); [reflexivity|lra].
        -- apply FS. lra.
        -- apply (constant_state g); auto.
        -- apply fan_admissible; auto.
        -- exact FH.
        -- rewrite right_wave_rarefaction by lra. fold H T. destruct (Rle_dec H H); [symmetry; exact FH|lra].
      * apply (jump_continuous g d _ (fun _ => rarefied g r d pM uM) (fan g r d (-1))).
        -- exists (T - 1). split; [lra|]. intros y Hy. rewrite right_wave_rarefaction by lra. fold H T.
           destruct (Rle_dec H y); [lra|]. destruct (Rle_dec y T); [reflexivity|lra].
        -- exists H. split; [lra|]. intros y Hy. rewrite right_wave_rarefaction by lra. fold H T.
           destruct (Rle_dec H y); [lra|]. destruct (Rle_dec y T); [lra|reflexivity].
        -- apply MC.
        -- apply FS. lra.
        -- exact MA.
        -- symmetry. exact FT.
        -- rewrite right_wave_rarefaction by lra. fold H T. destruct (Rle_dec H T); [lra|]. destruct (Rle_dec T T); [reflexivity|lra].
    + assert (H = T) as E by lra. assert (x = T) as -> by (destruct Hx as [<- | [<- | []]]; lra).
      rewrite E in FH. assert (rarefied g r d pM uM = r) as M by congruence.
      apply (jump_continuous g d _ (fun _ => rarefied g r d pM uM) (fun _ => r)).
      * exists (T - 1). split; [lra|]. intros y Hy. rewrite right_wave_rarefaction by lra. fold H T.
        destruct (Rle_dec H y); [lra|]. destruct (Rle_dec y T); [reflexivity|lra].
      * exists (T + 1). split; [lra|]. intros y Hy. rewrite right_wave_rarefaction by lra. fold H T. destruct (Rle_dec H y); [reflexivity|lra].
      * apply MC.
      * apply (constant_state g); auto.
      * exact MA.
      * exact M.
      * rewrite right_wave_rarefaction by lra. fold H T. destruct (Rle_dec H T); [congruence|lra].
Qed.
End Right.

(** ** The whole solution *)

Section Whole.
Variables (g : gas) (l r : Complete) (d : nat) (pM uM : R).
Hypothesis Hg : perfect g.
Hypothesis Hl : admissible g l.
Hypothesis Hr : admissible g r.
Hypothesis Hlen : length (momentum r) = length (momentum l).
Hypothesis Hd : (d < length (momentum l))%nat.
Hypothesis HpM : 0 < pM.
Hypothesis HuL : uM = velocity l d - phi g l pM.
Hypothesis HuR : uM = velocity r d + phi g r pM.

Definition solution (x : R) : Complete := if Rle_dec x uM then left_wave g l d pM uM x else right_wave g r d pM uM x.

Lemma HuL' : uM = velocity l d - 1 * phi g l pM.
Proof. lra. Qed.
Lemma HuR' : uM = velocity r d - -1 * phi g r pM.
Proof. lra. Qed.
Lemma Hd' : (d < length (momentum r))%nat.
Proof. rewrite Hlen. exact Hd. Qed.

Lemma jump_local w v x : near x (fun y => w y = v y) -> jump_at g d v x -> jump_at g d w x.
Proof.
  intros (a & b & Hab & E) (ql & qr & A1 & A2 & L1 & L2 & RH & En & Hv). exists ql, qr.
  split; [exact A1|]. split; [exact A2|]. split; [|split; [|split; [exact RH|split; [exact En|]]]].
  - intros c e He. destruct (L1 c e He) as (al & Hal & H). exists (Rmin al (x - a)). split; [apply Rmin_glb_lt; lra|].
    intros y [Hy Hy']. pose proof (Rmin_l al (x - a)). pose proof (Rmin_r al (x - a)). cbn in Hy' |- *. unfold R_dist in Hy'.
    assert (x - y <= Rabs (y - x)) by (rewrite Rabs_minus_sym; apply Rle_abs).
    rewrite E by lra. apply H. split; [exact Hy|]. cbn. unfold R_dist. lra.
  - intros c e He. destruct (L2 c e He) as (al & Hal & H). exists (Rmin al (b - x)). split; [apply Rmin_glb_lt; lra|].
    intros y [Hy Hy']. pose proof (Rmin_l al (b - x)). pose proof (Rmin_r al (b - x)). cbn in Hy' |- *. unfold R_dist in Hy'.
    assert (y - x <= Rabs (y - x)) by apply Rle_abs.
    rewrite E by lra. apply H. split; [exact Hy|]. cbn. unfold R_dist. lra.
  - rewrite E by lra. exact Hv.
Qed.

Lemma solution_left x : x < uM -> near x (fun y => solution y = left_wave g l d pM uM y).
Proof.
  intros H. exists (x - 1), uM. split; [lra|]. intros y Hy. unfold solution. destruct (Rle_dec y uM); [reflexivity|lra].
Qed.

Lemma solution_right x : uM < x -> near x (fun y => solution y = right_wave g r d pM uM y).
Proof.
  intros H. exists uM, (x + 1). split; [lra|]. intros y Hy. unfold solution. destruct (Rle_dec y uM); [lra|reflexivity].
Qed.

Lemma contact_jump : jump_at g d solution uM.
Proof.
  destruct (left_middle_prim g l d pM uM Hg Hl HpM) as (rl & Pl & El).
  destruct (right_middle_prim g r d pM uM Hg Hr HpM) as (rr & Pr & Er).
  destruct (left_near_contact g l d pM uM Hg Hl HpM HuL') as (a & Ha & Na).
  destruct (right_near_contact g r d pM uM Hg Hr HpM HuR') as (b & Hb & Nb).
  pose proof (left_middle_admissible g l d pM uM Hg Hl HpM) as Al.
  pose proof (right_middle_admissible g r d pM uM Hg Hr HpM) as Ar.
  apply (jump_intro g d _ (fun _ => left_middle g l d pM uM) (fun _ => right_middle g r d pM uM)).
  - exists a. split; [exact Ha|]. intros y Hy. unfold solution. destruct (Rle_dec y uM); [|lra]. apply Na. lra.
  - exists b. split; [exact Hb|]. intros y Hy. unfold solution. destruct (Rle_dec y uM); [lra|]. apply Nb. lra.
  - apply left_middle_constant; auto.
  - apply right_middle_constant; auto. exact Hd'.
  - exact Al.
  - exact Ar.
  - assert (speed (left_middle g l d pM uM) d = uM) as Sl by (rewrite El; apply prim_speed; auto; lra).
    assert (speed (right_middle g r d pM uM) d = uM) as Sr by (rewrite Er; apply prim_speed; auto; [exact Hd' | lra]).
    assert (pressure (left_middle g l d pM uM) = pressure (right_middle g r d pM uM)) as P
      by (rewrite El, Er, !prim_pressure; reflexivity).
    intros c. unfold transport, amount. rewrite Sl, Sr, P. destruct c; ring.
  - assert (speed (left_middle g l d pM uM) d = uM) as Sl by (rewrite El; apply prim_speed; auto; lra).
    assert (speed (right_middle g r d pM uM) d = uM) as Sr by (rewrite Er; apply prim_speed; auto; [exact Hd' | lra]).
    rewrite Sl, Sr. lra.
  - left. unfold solution. destruct (Rle_dec uM uM); [|lra]. apply Na. lra.
Qed.

Lemma solution_riemann : riemann_solution g d l r solution.
Proof.
  split; [|split].
  - exists (uM :: left_breaks g l d pM uM ++ right_breaks g r d pM uM). split.
    + intros x N. destruct (Rtotal_order x uM) as [H|[->|H]].
      * apply (conserved_near d _ _ x (solution_left x H)). apply left_smooth; auto; [exact HuL'|].
        intros I. apply N. right. apply in_or_app. left. exact I.
      * exfalso. apply N. left. reflexivity.
      * apply (conserved_near d _ _ x (solution_right x H)). apply right_smooth; auto; [exact Hd'|exact HuR'|].
        intros I. apply N. right. apply in_or_app. right. exact I.
    + intros x [<- | I]; [apply contact_jump|]. apply in_app_or in I. destruct I as [I|I].
      * pose proof (left_breaks_before g l d pM uM Hg Hl HpM HuL' x I) as H.
        apply (jump_local _ _ x (solution_left x H)). apply left_jump; auto. exact HuL'.
      * pose proof (right_breaks_after g r d pM uM Hg Hr HpM HuR' x I) as H.
        apply (jump_local _ _ x (solution_right x H)). apply right_jump; auto; [exact Hd'|exact HuR'].
  - exists (Rmin uM (velocity l d - 1 * signal_distance g l pM)), (Rmax uM (velocity r d - -1 * signal_distance g r pM)). split.
    + intros x H. pose proof (Rmin_l uM (velocity l d - 1 * signal_distance g l pM)).
      pose proof (Rmin_r uM (velocity l d - 1 * signal_distance g l pM)).
      unfold solution. destruct (Rle_dec x uM); [|lra]. apply left_outside; auto; first [exact HuL' | exact HuR' | exact Hd' | lra].
    + intros x H. pose proof (Rmax_l uM (velocity r d - -1 * signal_distance g r pM)).
      pose proof (Rmax_r uM (velocity r d - -1 * signal_distance g r pM)).
      unfold solution. destruct (Rle_dec x uM); [lra|]. apply right_outside; auto; first [exact HuL' | exact HuR' | exact Hd' | lra].
  - intros x. unfold solution. destruct (Rle_dec x uM).
    + apply left_wave_admissible; auto; first [exact HuL' | exact HuR' | exact Hd' | lra].
    + rewrite <- Hlen. apply right_wave_admissible; auto; first [exact HuL' | exact HuR' | exact Hd' | lra].
Qed.

Lemma assertions_true : assertions l r pM = true.
Proof.
  destruct (side_facts g l Hg Hl) as (_ & L2 & L3 & L4 & _). destruct (side_facts g r Hg Hr) as (_ & R2 & R3 & R4 & _).
  unfold assertions. repeat match goal with |- context [Rlt_dec 0 ?a] => destruct (Rlt_dec 0 a); [|lra] end. reflexivity.
Qed.

Lemma solve_at state dx dt : 0 < dt -> SolveRiemannProblemAt g state l r pM uM dt dx d = Some (solution (dx / dt)).
Proof.
  intros _. unfold SolveRiemannProblemAt. cbv zeta. rewrite assertions_true.
  destruct (Rlt_dec 0 (density l)) as [_|N]; [|exfalso; apply N; apply Hl].
  destruct (Rlt_dec 0 (density r)) as [_|N]; [|exfalso; apply N; apply Hr].
  unfold solution. destruct (Rle_dec (dx / dt) uM).
  - apply left_some; auto; first [exact HuL' | exact HuR' | exact Hd' | lra].
  - apply right_some; auto; first [exact HuL' | exact HuR' | exact Hd' | lra].
Qed.

Lemma left_zero : LeftSide0 g l d pM uM = LeftSide g l d pM uM 0.
Proof. unfold LeftSide0, LeftSide. cbv zeta. rewrite !Rminus_0_r, !Rplus_0_r. reflexivity. Qed.

Lemma right_zero : RightSide0 g r d pM uM = RightSide g r d pM uM 0.
Proof. unfold RightSide0, RightSide. cbv zeta. rewrite !Rminus_0_r, !Rplus_0_r. reflexivity. Qed.

Lemma solve_from : SolveFrom g l r d pM uM = Some (solution 0).
Proof.
  unfold SolveFrom. rewrite assertions_true. unfold solution. destruct (Rle_dec 0 uM).
  - rewrite left_zero. apply left_some; auto; first [exact HuL' | exact HuR' | exact Hd' | lra].
  - rewrite right_zero. apply right_some; auto; first [exact HuL' | exact HuR' | exact Hd' | lra].
Qed.
End Whole.
