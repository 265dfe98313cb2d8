(** C156: index spaces without walls. *)
From Coq Require Import List ZArith Bool Arith Lia.
From Verif Require Import RegularModel RegularSpec RegularProofs.
Import ListNotations.
Local Open Scope Z_scope.

(** For every coarse domain with cells, all ratios of at least 1 and up to 29 levels (for which the number of ghost cells fits an int) a space is built for
    each level, and the space of level l has an entry for the domain of every level k up to l; with a ratio of at least 2 it has 4 * 2^k ghost cells.
    [isOK] is whether AMReX can build a level; what happens with further, coarser levels does not matter. *)
Theorem C156_levels : forall (isOK : list (Z * Z) * Z -> bool) (axes : list (Z * (Z * Z))) n,
  (forall a, In a axes -> 1 <= fst a /\ 1 <= snd (snd a)) -> (n <= 29)%nat ->
  (forall k, (k < n)%nat -> isOK (domain_at k axes, 4 * 2 ^ Z.of_nat k) = true) ->
  exists spaces, BuildRegularSpace isOK (domain_at 0 axes) (map fst axes) n = Some spaces /\ length spaces = n /\
    forall l space, nth_error spaces l = Some space -> forall k, (k <= l)%nat ->
      exists ng, getLevel space (domain_at k axes) = Some (domain_at k axes, ng) /\ ((exists a, In a axes /\ 2 <= fst a) -> ng = 4 * 2 ^ Z.of_nat k).
Proof.
  intros isOK axes n Ha Hn Hok.
  assert (G : forall m lev, (lev + m = n)%nat -> exists spaces, build_loop isOK m lev (domain_at lev axes) (ratios axes) = Some spaces /\ length spaces = m /\
    forall i space, nth_error spaces i = Some space -> exists extra, space = base axes 4 (lev + i) (S (lev + i)) ++ extra).
  { induction m as [|m IH]; intros lev E; [exists []; split; [reflexivity|split; [reflexivity|intros [|i] space H; discriminate]]|].
    cbn [build_loop]. destruct (space_levels isOK axes lev Ha ltac:(lia)) as (extra & S1); [intros k Hk; apply Hok; lia|].
    destruct (IH (S lev) ltac:(lia)) as (spaces & S2 & L & S3). exists ((base axes 4 lev (S lev) ++ extra) :: spaces).
    rewrite S1, refine_at, S2. split; [reflexivity|]. split; [cbn; lia|].
    intros [|i] space H; cbn in H; [injection H as <-; exists extra; now rewrite Nat.add_0_r|]. replace (lev + S i)%nat with (S lev + i)%nat by lia. now apply S3. }
  destruct (G n 0%nat ltac:(lia)) as (spaces & B & L & S). exists spaces. split; [exact B|]. split; [exact L|].
  intros l space H k Hk. destruct (S l space H) as (extra & ->). cbn [Nat.add].
  destruct (lookup_base axes 4 l extra k Hk) as (q & Hq & Eq & E). rewrite E, Eq. exists (4 * 2 ^ Z.of_nat q). split; [reflexivity|]. intros X. now rewrite (domain_inj axes k q Ha X Eq).
Qed.
Print Assumptions C156_levels.

(** A space of any domain is only built (instead of an abort) with all required levels, and refining the domain of its k-th level k times gives the domain
    of the space back: no cell is lost. The ghost cells are halved from level to level and end with the given number at the last required level. *)
Theorem C156_space : forall isOK geom r required max_coarsening ngrow space, 0 <= ngrow -> (required <= 30)%nat ->
  AllRegularIndexSpace isOK geom r required max_coarsening ngrow = Some space ->
  (required < length space)%nat /\
  forall k domain ng, nth_error space k = Some (domain, ng) -> Nat.iter k (refine r) domain = geom /\ ((k <= required)%nat -> ng = ngrow * 2 ^ Z.of_nat (required - k)).
Proof.
  intros isOK geom r required maxc ngrow space Hn Hr H. destruct (space_good _ _ _ _ _ _ _ Hn H) as [G L]. split; [lia|]. intros k domain ng Hk. exact (G k (domain, ng) Hk).
Qed.
Print Assumptions C156_space.

(** The constructor of the space aborts if the domain cannot be coarsened as often as required. *)
Theorem C156_abort : forall isOK geom r required max_coarsening ngrow, 0 <= ngrow -> (required <= 30)%nat ->
  (forall domain, Nat.iter required (refine r) domain <> geom) -> AllRegularIndexSpace isOK geom r required max_coarsening ngrow = None.
Proof.
  intros isOK geom r required maxc ngrow Hn Hr N. destruct (AllRegularIndexSpace isOK geom r required maxc ngrow) as [space|] eqn:E; [|reflexivity]. exfalso.
  destruct (C156_space _ _ _ _ _ _ _ Hn Hr E) as [L H]. destruct (nth_error space required) as [[domain ng]|] eqn:X; [|apply nth_error_None in X; lia].
  apply (N domain). now apply (H _ _ _ X).
Qed.
Print Assumptions C156_abort.

(** Two axes of 8 and 4 cells, the second one starting at -4 and not refined. *)
Definition axes_ex : list (Z * (Z * Z)) := [(2, (0, 8)); (1, (-4, 4))].
Example C156_example :
  (forall a, In a axes_ex -> 1 <= fst a /\ 1 <= snd (snd a)) /\ (exists a, In a axes_ex /\ 2 <= fst a) /\ domain_at 1 axes_ex = [(0, 15); (-4, -1)] /\
  BuildRegularSpace (fun _ => true) (domain_at 0 axes_ex) [2; 1] 2 =
    Some [[([(0, 7); (-4, -1)], 4); ([(0, 3); (-4, -1)], 0)]; [([(0, 15); (-4, -1)], 8); ([(0, 7); (-4, -1)], 4); ([(0, 3); (-4, -1)], 0)]] /\
  (forall domain, Nat.iter 2 (refine [2]) domain <> [(0, 5)]) /\ AllRegularIndexSpace (fun _ => true) [(0, 5)] [2] 2 2 4 = None.
Proof.
  split; [intros a [<- | [<- | []]]; cbn; lia|]. split; [exists (2, (0, 8)); split; [now left|cbn; lia]|]. repeat split.
  intros [|[lo hi] [|]]; cbn [Nat.iter nat_rect refine]; try discriminate; intros E; injection E as E1 E2; lia.
Qed.
