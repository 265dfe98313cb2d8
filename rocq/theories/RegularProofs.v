(** Proofs for C156. *)
From Coq Require Import List ZArith Bool Arith Lia.
From Verif Require Import RegularModel RegularSpec.
Import ListNotations.
Local Open Scope Z_scope.

Lemma box_eqb_spec : forall a b, box_eqb a b = true <-> a = b.
Proof.
  induction a as [|[l h] a IH]; intros [|[l' h'] b]; cbn [box_eqb]; try (split; [discriminate|congruence]); [tauto|].
  rewrite !andb_true_iff, !Z.eqb_eq, IH. split; [intros [[-> ->] ->]; reflexivity|intros [= -> -> ->]; auto].
Qed.
Definition ok (axes : list (Z * (Z * Z))) : Prop := forall a, In a axes -> 1 <= fst a /\ 1 <= snd (snd a).
Definition ratios (axes : list (Z * (Z * Z))) : list Z := map fst axes.

Lemma pow_S x k : x ^ Z.of_nat (S k) = x ^ Z.of_nat k * x.
Proof. rewrite Nat2Z.inj_succ, Z.pow_succ_r by lia. ring. Qed.
Lemma refine_at k : forall axes, refine (ratios axes) (domain_at k axes) = domain_at (S k) axes.
Proof.
  induction axes as [|(x & lo & n) axes IH]; [reflexivity|]. unfold ratios, domain_at in *. cbn [map refine fst snd]. unfold refined_axis at 1. cbn [fst snd]. rewrite IH. f_equal.
  unfold refined_axis. rewrite pow_S. f_equal; ring.
Qed.
Lemma coarsen_at k : forall axes, ok axes -> coarsen (ratios axes) (domain_at (S k) axes) = domain_at k axes.
Proof.
  induction axes as [|(x & lo & n) axes IH]; intros H; [reflexivity|]. unfold ratios, domain_at in *. cbn [map coarsen fst snd]. unfold refined_axis at 1. cbn [fst snd].
  rewrite IH by (intros a Ha; apply H; now right). f_equal. destruct (H (x, (lo, n)) (or_introl eq_refl)) as [Hx Hn]. cbn in Hx, Hn. unfold refined_axis. rewrite pow_S. set (p := x ^ Z.of_nat k).
  f_equal; [rewrite Z.mul_assoc; apply Z.div_mul; lia|].
  symmetry. apply Z.div_unique with (r := x - 1); [left; lia|ring].
Qed.
Lemma large_at k : forall axes, ok axes -> large_enough (ratios axes) (domain_at (S k) axes) = true.
Proof.
  induction axes as [|(x & lo & n) axes IH]; intros H; [reflexivity|]. unfold ratios, domain_at in *. cbn [map large_enough fst snd]. unfold refined_axis at 1. cbn [fst snd].
  rewrite IH by (intros a Ha; apply H; now right). rewrite andb_true_r. apply Z.leb_le. destruct (H (x, (lo, n)) (or_introl eq_refl)) as [Hx Hn]. cbn in Hx, Hn. rewrite pow_S.
  assert (1 <= x ^ Z.of_nat k) by (apply (Z.pow_le_mono_l 1 x) with (c := Z.of_nat k) in Hx || idtac; assert (0 < x ^ Z.of_nat k) by (apply Z.pow_pos_nonneg; lia); lia).
  assert (1 <= n * x ^ Z.of_nat k) by nia. set (q := x ^ Z.of_nat k) in *. replace (lo * (q * x) + n * (q * x) - 1 - lo * (q * x) + 1) with ((n * q) * x) by ring. nia.
Qed.
Lemma coarsenable_at k axes : ok axes -> coarsenable (ratios axes) (domain_at (S k) axes) = true.
Proof. intros H. unfold coarsenable. rewrite large_at, coarsen_at, refine_at by exact H. now apply box_eqb_spec. Qed.

(** The levels of the space for the AMR level l: its own domain first, then the coarser ones *)
Definition base (axes : list (Z * (Z * Z))) (g : Z) (l j : nat) : list level := map (fun i => (domain_at (l - i) axes, g * 2 ^ Z.of_nat (l - i))) (seq 0 j).
Lemma base_S axes g l j : base axes g l (S j) = base axes g l j ++ [(domain_at (l - j) axes, g * 2 ^ Z.of_nat (l - j))].
Proof. unfold base. rewrite seq_S, map_app. reflexivity. Qed.
Lemma base_last axes g l j : last (base axes g l (S j)) ([], 0) = (domain_at (l - j) axes, g * 2 ^ Z.of_nat (l - j)).
Proof. rewrite base_S. apply last_last. Qed.
Lemma loop_keeps isOK r required : forall turns ilev levels, (required < ilev)%nat -> exists extra, coarse_levels turns isOK r required ilev levels = Some (levels ++ extra).
Proof.
  induction turns as [|turns IH]; intros ilev levels Hi; cbn [coarse_levels]; [exists []; now rewrite app_nil_r|].
  destruct (Nat.leb_spec ilev required); [lia|]. cbv zeta.
  destruct (negb (coarsenable r (fst (last levels ([], 0))))); [exists []; now rewrite app_nil_r|].
  set (lev := (coarsen r (fst (last levels ([], 0))), if (required <? ilev)%nat then 0 else Z.quot (snd (last levels ([], 0))) 2)).
  destruct (negb (isOK lev)); [exists []; now rewrite app_nil_r|]. destruct (IH (S ilev) (levels ++ [lev])) as (extra & ->); [lia|]. exists (lev :: extra). now rewrite <- app_assoc.
Qed.
Lemma loop_required isOK axes g l : ok axes -> 0 <= g -> (forall k, (k <= l)%nat -> isOK (domain_at k axes, g * 2 ^ Z.of_nat k) = true) ->
  forall turns j, (j <= l)%nat -> (l - j <= turns)%nat -> exists extra, coarse_levels turns isOK (ratios axes) l (S j) (base axes g l (S j)) = Some (base axes g l (S l) ++ extra).
Proof.
  intros Ha Hg Hok. induction turns as [|turns IH]; intros j Hj Ht.
  - assert (j = l) as -> by lia. exists []. now rewrite app_nil_r.
  - destruct (Nat.eq_dec j l) as [-> |N]; [apply loop_keeps; lia|].
    cbn [coarse_levels]. rewrite base_last. cbn [fst snd]. replace (l - j)%nat with (S (l - S j)) by lia. rewrite coarsenable_at by exact Ha. cbn [negb]. cbv zeta.
    destruct (Nat.ltb_spec l (S j)); [lia|]. rewrite coarsen_at by exact Ha.
    assert (Q : Z.quot (g * 2 ^ Z.of_nat (S (l - S j))) 2 = g * 2 ^ Z.of_nat (l - S j)). { rewrite pow_S, Z.mul_assoc. apply Z.quot_mul. lia. }
    rewrite Q, Hok by lia. cbn [negb]. rewrite <- base_S. apply IH; lia.
Qed.
Lemma iter_double n g : Nat.iter n (fun n => n * 2) g = g * 2 ^ Z.of_nat n.
Proof. induction n as [|n IH]; [cbn; ring|]. cbn [Nat.iter nat_rect]. unfold Nat.iter in IH. rewrite IH, pow_S. ring. Qed.
Lemma space_levels isOK axes l : ok axes -> (l <= 30)%nat -> (forall k, (k <= l)%nat -> isOK (domain_at k axes, 4 * 2 ^ Z.of_nat k) = true) ->
  exists extra, AllRegularIndexSpace isOK (domain_at l axes) (ratios axes) l (l + 1) 4 = Some (base axes 4 l (S l) ++ extra).
Proof.
  intros Ha Hl Hok. unfold AllRegularIndexSpace. rewrite iter_double. change (Z.max 4 0) with 4.
  assert (B : base axes 4 l 1 = [(domain_at l axes, 4 * 2 ^ Z.of_nat l)]) by (unfold base; cbn [seq map]; rewrite Nat.sub_0_r; reflexivity).
  destruct (loop_required isOK axes 4 l Ha ltac:(lia) Hok (Nat.min 30 (Nat.max l (l + 1))) 0 ltac:(lia) ltac:(lia)) as (extra & E).
  exists extra. rewrite <- E, B. reflexivity.
Qed.

Lemma find_app {A} (f : A -> bool) : forall a b, find f (a ++ b) = match find f a with Some x => Some x | None => find f b end.
Proof. induction a as [|x a IH]; intros b; [reflexivity|]. cbn. destruct (f x); [reflexivity|apply IH]. Qed.
Lemma lookup_base axes g l extra k : (k <= l)%nat -> exists q, (q <= l)%nat /\ domain_at q axes = domain_at k axes /\
  getLevel (base axes g l (S l) ++ extra) (domain_at k axes) = Some (domain_at q axes, g * 2 ^ Z.of_nat q).
Proof.
  intros Hk. unfold getLevel. rewrite find_app. destruct (find (fun l0 => box_eqb (fst l0) (domain_at k axes)) (base axes g l (S l))) as [x|] eqn:E.
  - apply find_some in E. destruct E as [Hi He]. apply box_eqb_spec in He. unfold base in Hi. apply in_map_iff in Hi. destruct Hi as (i & <- & Hi). apply in_seq in Hi. cbn [fst] in He.
    exists (l - i)%nat. split; [lia|]. split; [exact He|reflexivity].
  - exfalso. assert (N : box_eqb (fst (domain_at k axes, g * 2 ^ Z.of_nat k)) (domain_at k axes) = false); [apply (find_none _ _ E)|cbn [fst] in N; rewrite (proj2 (box_eqb_spec _ _) eq_refl) in N; discriminate].
    unfold base. apply in_map_iff. exists (l - k)%nat. split; [now replace (l - (l - k))%nat with k by lia|apply in_seq; lia].
Qed.
Lemma domain_inj axes k q : ok axes -> (exists a, In a axes /\ 2 <= fst a) -> domain_at q axes = domain_at k axes -> q = k.
Proof.
  intros Ha ((x & lo & n) & Hi & Hx) E. destruct (Ha _ Hi) as [_ Hn]. cbn in Hx, Hn.
  destruct (In_nth_error axes _ Hi) as (d & Ed). apply (f_equal (fun b => nth_error b d)) in E. unfold domain_at in E. rewrite !nth_error_map, Ed in E. cbn in E.
  injection E as E1 E2. rewrite E1 in E2. assert (E3 : n * x ^ Z.of_nat q = n * x ^ Z.of_nat k) by lia.
  apply Z.mul_cancel_l in E3; [|lia]. apply Z.pow_inj_r in E3; lia.
Qed.

(** Spaces of arbitrary domains *)
Definition good (r : list Z) (geom : box) (required : nat) (g : Z) (levels : list level) : Prop :=
  forall k lev, nth_error levels k = Some lev -> Nat.iter k (refine r) (fst lev) = geom /\ ((k <= required)%nat -> snd lev = g * 2 ^ Z.of_nat (required - k)).
Lemma iter_comm {A} (f : A -> A) k x : Nat.iter k f (f x) = f (Nat.iter k f x).
Proof. induction k as [|k IH]; [reflexivity|]. change (f (Nat.iter k f (f x)) = f (f (Nat.iter k f x))). now rewrite IH. Qed.
Lemma loop_good isOK r geom required g : forall turns ilev levels out, (1 <= ilev)%nat -> length levels = ilev -> good r geom required g levels ->
  coarse_levels turns isOK r required ilev levels = Some out -> good r geom required g out /\ (Nat.min (turns + ilev) (S required) <= length out)%nat.
Proof.
  induction turns as [|turns IH]; intros ilev levels out Hi Hl Hg; cbn [coarse_levels]; [intros [= <-]; split; [exact Hg|lia]|].
  cbv zeta. remember (last levels ([], 0)) as back eqn:Eb.
  assert (Hb : nth_error levels (ilev - 1) = Some back).
  { destruct (exists_last (l := levels)) as (front & b & E); [intros ->; cbn in Hl; lia|]. subst levels. rewrite last_last in Eb. subst b. rewrite app_length in Hl. cbn in Hl. rewrite nth_error_app2 by lia. now replace (ilev - 1 - length front)%nat with 0%nat by lia. }
  destruct (coarsenable r (fst back)) eqn:C; cbn [negb].
  - match goal with |- context [isOK ?x] => remember x as lev eqn:El end.
    destruct (isOK lev); cbn [negb].
    + intros H. apply IH in H; [split; [apply H|destruct H; lia]|lia|rewrite app_length; cbn; lia|].
      intros k x Hk. destruct (lt_dec k (length levels)) as [L|L]; [rewrite nth_error_app1 in Hk by lia; now apply Hg|].
      rewrite nth_error_app2 in Hk by lia. destruct (k - length levels)%nat as [|d] eqn:Ed; [|cbn in Hk; destruct d; discriminate]. cbn in Hk. injection Hk as <-. assert (k = ilev) as -> by lia.
      destruct (Hg _ _ Hb) as [G1 G2]. apply andb_true_iff in C. destruct C as [_ C]. apply box_eqb_spec in C. split.
      * subst lev. cbn [fst]. replace ilev with (S (ilev - 1)) by lia. change (refine r (Nat.iter (ilev - 1) (refine r) (coarsen r (fst back))) = geom). rewrite <- iter_comm, <- C. exact G1.
      * intros Hr. subst lev. cbn [snd]. destruct (Nat.ltb_spec required ilev); [lia|]. rewrite G2 by lia. replace (required - (ilev - 1))%nat with (S (required - ilev)) by lia. rewrite pow_S, Z.mul_assoc. apply Z.quot_mul. lia.
    + destruct (Nat.leb_spec ilev required); [discriminate|]. intros [= <-]. split; [exact Hg|lia].
  - destruct (Nat.leb_spec ilev required); [discriminate|]. intros [= <-]. split; [exact Hg|lia].
Qed.
Lemma space_good isOK geom r required maxc ngrow out : 0 <= ngrow -> AllRegularIndexSpace isOK geom r required maxc ngrow = Some out ->
  good r geom required ngrow out /\ (Nat.min 31 (S required) <= length out)%nat.
Proof.
  intros Hn. unfold AllRegularIndexSpace. rewrite iter_double, Z.max_l by lia. intros H. apply loop_good with (geom := geom) (g := ngrow) in H; [split; [apply H|destruct H; lia]|lia|reflexivity|].
  intros [|k] lev Hk; [|destruct k; discriminate]. cbn in Hk. injection Hk as <-. split; [reflexivity|]. intros _. rewrite Nat.sub_0_r. reflexivity.
Qed.
