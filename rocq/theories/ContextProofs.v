(** Proofs for the level bookkeeping. *)
From Coq Require Import Reals List Arith Lia Lra Bool.
From Verif Require Import SplitModel SubcycleModel SubcycleSpec SubcycleProofs ContextModel ContextSpec.
Import ListNotations.
Local Open Scope R_scope.

Section Ctx.
  Context {U : Type}.
  Variable code : Code U.
  Variables mx rr : nat.
  Hypothesis rr_pos : (1 <= rr)%nat.
  Notation I := (ctx_integrator code mx rr).

  (** same bookkeeping except the regrid times *)
  Definition eqw (w w' : World U) : Prop :=
    n_data w' = n_data w /\ n_hier w' = n_hier w /\
    (forall j, d_time w' j = d_time w j) /\ (forall j, d_cycles w' j = d_cycles w j) /\
    (forall j, h_time w' j = h_time w j) /\ (forall j, h_cycles w' j = h_cycles w j).

  Lemma eqw_refl : forall w, eqw w w.
  Proof. repeat split. Qed.

  (** What happens to levels >= l when AdvanceLevel(l) succeeds. *)
  Definition advanced (l : nat) (t dt : R) (last : bool) (w w' : World U) : Prop :=
    n_data w' = n_data w /\ n_hier w' = n_hier w /\
    (forall j, (j < l)%nat -> d_time w' j = d_time w j /\ h_time w' j = h_time w j /\
       d_cycles w' j = d_cycles w j /\ h_cycles w' j = h_cycles w j /\ d_regrid w' j = d_regrid w j) /\
    (forall j, (l <= j < n_hier w)%nat -> d_time w' j = t + dt /\ d_cycles w' j = (d_cycles w j + rr ^ (j - l))%nat) /\
    (forall j, (l < j < n_hier w)%nat -> h_time w' j = t + dt /\ h_cycles w' j = d_cycles w' j) /\
    (if last then h_time w' l = t + dt /\ h_cycles w' l = d_cycles w' l
     else h_time w' l = h_time w l /\ h_cycles w' l = h_cycles w l).

  Definition is_last (sub : nat * nat) : bool := Nat.eqb (fst sub) (snd sub - 1).

  Lemma finish_ctx : forall l dt sub w w',
    finish_level I l dt sub w = (w', None) ->
    n_data w' = n_data w /\ n_hier w' = n_hier w /\
    d_time w' = set_at (d_time w) l (d_time w l + dt) /\
    d_cycles w' = set_at (d_cycles w) l (S (d_cycles w l)) /\
    h_time w' = (if is_last sub then set_at (h_time w) l (d_time w l + dt) else h_time w) /\
    h_cycles w' = (if is_last sub then set_at (h_cycles w) l (S (d_cycles w l)) else h_cycles w) /\
    d_regrid w' = d_regrid w.
  Proof.
    intros l dt sub w w' H. unfold finish_level, level_exists in H.
    cbn [advance_nonrecursively num_levels apply_flux_correction coarsen_conservatively complete_from_cons
         copy_scratch_to_data post_advance_level ctx_integrator] in H.
    destruct (c_advance code l dt sub w) as [u [e|]]; [discriminate|].
    cbn [n_hier with_user] in H.
    destruct (Nat.ltb (S l) (n_hier w)); cbn [n_hier with_user] in H;
    try destruct (Nat.ltb (S l) (n_hier w)); cbn -[Nat.eqb] in H; injection H as <-; cbn -[Nat.eqb];
    unfold is_last; repeat split.
  Qed.

  (** The loop over sub-cycles of level l+1, given a specification of one sub-cycle. *)
  Lemma loop_ctx : forall l t d (body : nat -> World U -> World U * Result) n,
    (forall r w w', (r < rr)%nat -> n_hier w = n -> n_data w = n -> (S l < n)%nat ->
       (forall j, (S l <= j < n)%nat -> d_time w j = t + INR r * d) ->
       (r <> 0%nat \/ (l = 0%nat -> d_regrid w 1%nat = d_time w 1%nat)) ->
       body r w = (w', None) ->
       advanced (S l) (t + INR r * d) d (Nat.eqb r (rr - 1)) w w') ->
    forall k r w w', (r + k = rr)%nat -> n_hier w = n -> n_data w = n -> (S l < n)%nat ->
    (forall j, (S l <= j < n)%nat -> d_time w j = t + INR r * d) ->
    (r <> 0%nat \/ (l = 0%nat -> d_regrid w 1%nat = d_time w 1%nat)) ->
    for_subcycles body r k w = (w', None) ->
    n_data w' = n /\ n_hier w' = n /\
    (forall j, (j < S l)%nat -> d_time w' j = d_time w j /\ h_time w' j = h_time w j /\
       d_cycles w' j = d_cycles w j /\ h_cycles w' j = h_cycles w j /\ d_regrid w' j = d_regrid w j) /\
    (forall j, (S l <= j < n)%nat -> d_time w' j = t + INR rr * d /\
       d_cycles w' j = (d_cycles w j + k * rr ^ (j - S l))%nat) /\
    ((0 < k)%nat -> forall j, (S l <= j < n)%nat -> h_time w' j = t + INR rr * d /\ h_cycles w' j = d_cycles w' j).
  Proof.
    intros l t d body n Hbody; induction k as [|k IH]; intros r w w' Hrk Hn Hd Hl Ht Hc H; simpl in H.
    - injection H as <-. replace r with rr in Ht by lia. repeat split; auto; try lia.
    - destruct (body r w) as [w1 [e|]] eqn:E; [discriminate|].
      destruct (Hbody r w w1) as (A1 & A2 & A3 & A4 & A5 & A6); auto; [lia|].
      assert (Ht1 : forall j, (S l <= j < n)%nat -> d_time w1 j = t + INR (S r) * d).
      { intros j Hj. rewrite S_INR. rewrite <- Hn in Hj. destruct (A4 j Hj) as [-> _]. lra. }
      destruct (IH (S r) w1 w') as (B1 & B2 & B3 & B4 & B5); auto; try lia; try congruence.
      repeat split; auto; try congruence.
      + destruct (B3 j H0) as (-> & _). apply A3; auto.
      + destruct (B3 j H0) as (_ & -> & _). apply A3; auto.
      + destruct (B3 j H0) as (_ & _ & -> & _). apply A3; auto.
      + destruct (B3 j H0) as (_ & _ & _ & -> & _). apply A3; auto.
      + destruct (B3 j H0) as (_ & _ & _ & _ & ->). apply A3; auto.
      + apply B4; auto.
      + destruct (B4 j H0) as (_ & ->). rewrite <- Hn in H0. destruct (A4 j H0) as (_ & ->). simpl. lia.
      + intros. destruct k as [|k].
        * simpl in H. injection H as <-. assert (Hr : r = (rr - 1)%nat) by lia.
          rewrite Hr, Nat.eqb_refl in A6.
          destruct (Nat.eq_dec j (S l)) as [->|Hne].
          -- destruct A6 as [-> _]. destruct (B4 (S l) H1) as [HB _].
             destruct (A4 (S l) ltac:(lia)) as [HA _]. rewrite <- HB. rewrite HA. rewrite Hr. reflexivity.
          -- destruct (A5 j ltac:(lia)) as [-> _]. destruct (B4 j H1) as [HB _].
             destruct (A4 j ltac:(lia)) as [HA _]. rewrite <- HB, HA. reflexivity.
        * apply B5; auto; lia.
      + intros. destruct k as [|k].
        * simpl in H. injection H as <-. assert (Hr : r = (rr - 1)%nat) by lia.
          rewrite Hr, Nat.eqb_refl in A6.
          destruct (Nat.eq_dec j (S l)) as [->|Hne]; [apply A6|apply A5; lia].
        * apply B5; auto; lia.
  Qed.

  Lemma first_change_same : forall (w w' : World U) k i,
    (forall l, (i <= l)%nat -> boxes_of w' l = boxes_of w l) -> first_change w w' i k = (i + k)%nat.
  Proof using Type.
    clear rr_pos.
    intros w w'; induction k as [|k IH]; intros i H; simpl; [lia|].
    rewrite (H i (le_n _)).
    destruct (boxes_of w i) as [a|]; [rewrite Nat.eqb_refl|]; rewrite IH; try lia; intros; apply H; lia.
  Qed.

  Lemma first_change_lt : forall (w w' : World U) k i, first_change w w' i k <> (i + k)%nat \/
    (forall l, (i <= l < i + k)%nat -> boxes_of w' l = boxes_of w l).
  Proof using Type.
    clear rr_pos.
    intros w w'; induction k as [|k IH]; intros i; simpl.
    - right. intros; lia.
    - destruct (boxes_of w i) as [a|] eqn:Ea, (boxes_of w' i) as [b|] eqn:Eb; try (left; lia).
      + destruct (Nat.eqb_spec a b); [|left; lia]. destruct (IH (S i)) as [H|H]; [left; lia|].
        right. intros l Hl. destruct (Nat.eq_dec l i) as [->|]; [congruence|apply H; lia].
      + destruct (IH (S i)) as [H|H]; [left; lia|].
        right. intros l Hl. destruct (Nat.eq_dec l i) as [->|]; [congruence|apply H; lia].
  Qed.

  Lemma nth_map_seq : forall A (f : nat -> A) n s i,
    nth_error (map f (seq s n)) i = if Nat.ltb i n then Some (f (s + i)%nat) else None.
  Proof using Type.
    clear rr_pos.
    induction n as [|n IH]; intros s i; simpl.
    - destruct i; reflexivity.
    - destruct i as [|i]; simpl.
      + rewrite Nat.add_0_r. reflexivity.
      + rewrite IH. replace (S s + i)%nat with (s + S i)%nat by lia. reflexivity.
  Qed.

  Lemma regrid_kept : forall which w, keeps_grids code which -> (which < n_hier w <= mx)%nat ->
    exists w', regrid_all_finer_levels code mx which w = (w', mx) /\ eqw w w' /\ d_regrid w' = d_regrid w.
  Proof.
    intros which w Hk Hn. unfold regrid_all_finer_levels.
    destruct (Nat.ltb_spec which (mx - 1)); [|exists w; auto using eqw_refl].
    eexists. split.
    - f_equal. rewrite first_change_same; [lia|].
      intros l Hl. unfold boxes_of, amr_core_regrid. cbn [n_hier h_boxes].
      rewrite (Hk w), firstn_all2 by (rewrite map_length, seq_length; lia).
      rewrite map_length, seq_length, nth_map_seq.
      replace (S which + (n_hier w - S which))%nat with (n_hier w) by lia.
      destruct (Nat.ltb_spec l (n_hier w)); auto.
      destruct (Nat.ltb_spec which l); [|lia].
      destruct (Nat.ltb_spec (l - S which) (n_hier w - S which)); [|lia].
      replace (S which + (l - S which))%nat with l by lia. reflexivity.
    - assert (Hreb : forall l, (match nth_error (firstn (mx - 1 - which) (new_grids code which w)) (l - S which) with
        | Some (b, force) => Nat.ltb which l &&
          (force || match boxes_of w l with Some b' => negb (Nat.eqb b b') | None => true end)
        | None => false end)%bool = false).
      { intros l. rewrite (Hk w), firstn_all2 by (rewrite map_length, seq_length; lia).
        rewrite nth_map_seq.
        destruct (Nat.ltb_spec (l - S which) (n_hier w - S which)); auto.
        destruct (Nat.ltb_spec which l); auto. replace (S which + (l - S which))%nat with l by lia.
        unfold boxes_of. destruct (Nat.ltb_spec l (n_hier w)); [|lia]. rewrite Nat.eqb_refl. reflexivity. }
      split; [|reflexivity].
      unfold amr_core_regrid. repeat split; cbn [n_data n_hier d_time d_cycles h_time h_cycles].
      + rewrite (Hk w), firstn_all2 by (rewrite map_length, seq_length; lia).
        rewrite map_length, seq_length. lia.
      + intros j. rewrite Hreb. reflexivity.
      + intros j. rewrite Hreb. reflexivity.
  Qed.

  (** PreAdvanceLevel on a level where nothing is regridded *)
  Lemma pre_quiet : forall l dt sub w, (l < n_hier w <= mx)%nat ->
    (fst sub <> 0%nat \/ d_regrid w l = d_time w l \/ keeps_grids code l \/ (mx <= S l)%nat) ->
    eqw w (ctx_pre_advance_level code mx l dt sub w) /\
    (forall j, (j < l)%nat -> d_regrid (ctx_pre_advance_level code mx l dt sub w) j = d_regrid w j).
  Proof.
    intros l dt sub w Hn Hq. unfold ctx_pre_advance_level, context_pre_advance_level.
    destruct (Nat.eqb_spec (fst sub) 0) as [H0|H0]; cbn [andb]; [|repeat split].
    destruct (Req_EM_T (d_regrid w l) (d_time w l)) as [He|He]; [repeat split|].
    assert (Hr : exists w', regrid_all_finer_levels code mx l w = (w', mx) /\ eqw w w' /\ d_regrid w' = d_regrid w).
    { destruct Hq as [Hq|[Hq|[Hq|Hq]]]; [contradiction|contradiction| |].
      - apply (regrid_kept l w Hq Hn).
      - unfold regrid_all_finer_levels. destruct (Nat.ltb_spec l (mx - 1)); [lia|]. eauto using eqw_refl. }
    destruct Hr as (w' & -> & Heq & Hdr). rewrite Nat.ltb_irrefl. split; [exact Heq|].
    intros j Hj. unfold with_user. cbn [d_regrid]. rewrite Hdr.
    destruct (Nat.leb_spec l j); [lia|reflexivity].
  Qed.

  Hypothesis quiet2 : forall which, (2 <= which)%nat -> (S which < mx)%nat -> keeps_grids code which.

  (** The rest of AdvanceLevel(l) after PreAdvanceLevel. *)
  Lemma body_ctx : forall finer l t dt sub w1 w',
    (forall dt sub w w', 
       (S l < n_hier w)%nat -> n_data w = n_hier w -> (n_hier w <= mx)%nat ->
       (forall t, (forall j, (S l <= j < n_hier w)%nat -> d_time w j = t) ->
       (S l = 1%nat -> fst sub <> 0%nat \/ d_regrid w 1%nat = d_time w 1%nat) ->
       advance_level I finer (S l) dt sub w = (w', None) ->
       advanced (S l) t dt (is_last sub) w w')) ->
    (l < n_hier w1)%nat -> n_data w1 = n_hier w1 -> (n_hier w1 <= mx)%nat ->
    (forall j, (l <= j < n_hier w1)%nat -> d_time w1 j = t) ->
    (l = 0%nat -> d_regrid w1 1%nat = d_time w1 1%nat \/ (n_hier w1 <= 1)%nat) ->
    (if level_exists I (S l) w1 then
          match for_subcycles (fun r => advance_level I finer (S l) (dt / INR rr) (r, rr)) 0 rr
             (reset_coarse_fine_fluxes I (S l) l w1) with
          | (w3, Some e) => (w3, Some (scale_dt_on_error I e))
          | (w3, None) => finish_level I l dt sub w3
          end
        else finish_level I l dt sub w1) = (w', None) ->
    advanced l t dt (is_last sub) w1 w' /\ d_regrid w' l = d_regrid w1 l.
  Proof.
    intros finer l t dt sub w1 w' IH Hl Hd Hmx Ht Hreg H.
    unfold level_exists in H. cbn [num_levels ctx_integrator] in H.
    destruct (Nat.ltb_spec (S l) (n_hier w1)) as [Hex|Hex].
    - destruct (for_subcycles _ 0 rr _) as [w3 [e|]] eqn:E; [discriminate|].
      assert (Hrr : INR rr <> 0) by (apply not_0_INR; lia).
      destruct (loop_ctx l t (dt / INR rr) (fun r => advance_level I finer (S l) (dt / INR rr) (r, rr)) (n_hier w1)) with (k := rr) (r := 0%nat)
        (w := reset_coarse_fine_fluxes I (S l) l w1) (w' := w3) as (A1 & A2 & A3 & A4 & A5); auto.
      + intros r w w'' Hr Hn0 Hd0 Hl0 Ht0 Hc0 Hb0.
        apply (IH (dt / INR rr) (r, rr)); try lia; auto.
        * intros j Hj. apply Ht0. lia.
        * intros Hl1. destruct Hc0 as [Hc0|Hc0]; [left; auto|right; apply Hc0; lia].
      + intros j Hj. simpl. rewrite Ht by lia. lra.
      + right. intros Hl0. destruct (Hreg Hl0); [auto|lia].
      + cbn [reset_coarse_fine_fluxes ctx_integrator with_user d_time h_time d_cycles h_cycles n_hier] in A3, A4, A5.
        destruct (finish_ctx _ _ _ _ _ H) as (F1 & F2 & F3 & F4 & F5 & F6 & F7).
        replace (t + INR rr * (dt / INR rr)) with (t + dt) in * by (field; auto).
        assert (Htl : d_time w3 l = t) by (destruct (A3 l ltac:(lia)) as (-> & _); apply Ht; lia).
        unfold advanced. rewrite F1, F2, F3, F4, F5, F6, F7.
        split; [|destruct (A3 l ltac:(lia)) as (_ & _ & _ & _ & ->); reflexivity].
        split; [congruence|]. split; [congruence|]. split; [|split; [|split]].
        * intros j Hj. destruct (A3 j ltac:(lia)) as (B1 & B2 & B3 & B4 & B5).
          unfold set_at. destruct (Nat.eqb_spec j l); [lia|].
          destruct (is_last sub); destruct (Nat.eqb_spec j l); try lia; auto.
        * intros j Hj. unfold set_at. destruct (Nat.eqb_spec j l) as [->|Hne].
          -- split; [rewrite Htl; reflexivity|]. destruct (A3 l ltac:(lia)) as (_ & _ & -> & _).
             rewrite Nat.sub_diag. simpl. lia.
          -- destruct (A4 j ltac:(lia)) as [B1 B2]. split; auto. rewrite B2.
             replace (j - l)%nat with (S (j - S l)) by lia. simpl. lia.
        * intros j Hj. destruct (A5 ltac:(lia) j ltac:(lia)) as [B1 B2]. unfold set_at.
          destruct (Nat.eqb_spec j l); [lia|].
          destruct (is_last sub); destruct (Nat.eqb_spec j l); try lia; auto.
        * destruct (A3 l ltac:(lia)) as (_ & B2 & _ & B4 & _).
          destruct (is_last sub); auto. unfold set_at. rewrite Nat.eqb_refl. rewrite Htl. auto.
    - destruct (finish_ctx _ _ _ _ _ H) as (F1 & F2 & F3 & F4 & F5 & F6 & F7).
      assert (Htl : d_time w1 l = t) by (apply Ht; lia).
      unfold advanced. rewrite F1, F2, F3, F4, F5, F6, F7.
      split; [|reflexivity].
      split; [congruence|]. split; [congruence|]. split; [|split; [|split]].
      + intros j Hj. unfold set_at. destruct (Nat.eqb_spec j l); [lia|].
        destruct (is_last sub); destruct (Nat.eqb_spec j l); try lia; auto.
      + intros j Hj. assert (j = l) as -> by lia. unfold set_at. rewrite Nat.eqb_refl, Htl, Nat.sub_diag.
        split; auto. simpl. lia.
      + intros j Hj. lia.
      + destruct (is_last sub); auto. unfold set_at. rewrite Nat.eqb_refl. rewrite Htl. auto.
  Qed.

  Lemma advanced_eqw : forall l t dt b w w1 w', eqw w w1 ->
    (forall j, (j < l)%nat -> d_regrid w1 j = d_regrid w j) ->
    advanced l t dt b w1 w' -> advanced l t dt b w w'.
  Proof.
    intros l t dt b w w1 w' (E1 & E2 & E3 & E4 & E5 & E6) E7 (A1 & A2 & A3 & A4 & A5 & A6).
    unfold advanced. rewrite E2 in *. rewrite E1 in *.
    split; [auto|]. split; [auto|]. split; [|split; [|split]].
    - intros j Hj. rewrite <- E3, <- E5, <- E4, <- E6, <- E7 by auto. apply A3; auto.
    - intros j Hj. rewrite <- E4. apply A4; auto.
    - intros j Hj. apply A5; auto.
    - destruct b; auto. rewrite <- E5, <- E6. auto.
  Qed.

  Lemma sublevel_ctx : forall finer l t dt sub w w',
    (1 <= l)%nat -> (l < n_hier w)%nat -> n_data w = n_hier w -> (n_hier w <= mx)%nat ->
    (forall j, (l <= j < n_hier w)%nat -> d_time w j = t) ->
    (l = 1%nat -> fst sub <> 0%nat \/ d_regrid w 1%nat = d_time w 1%nat) ->
    (mx <= l + finer + 1)%nat ->
    advance_level I finer l dt sub w = (w', None) ->
    advanced l t dt (is_last sub) w w'.
  Proof.
    induction finer as [|f IH]; intros l t dt sub w w' H1 Hl Hd Hmx Ht Hc Hf H; cbn [advance_level] in H;
      set (w1 := pre_advance_level I l dt sub w) in *;
      assert (Heq : eqw w w1 /\ (forall j, (j < l)%nat -> d_regrid w1 j = d_regrid w j)) by
        (apply pre_quiet; [lia|]; destruct (Nat.eq_dec l 1) as [E|E];
         [subst l; destruct (Hc eq_refl); auto|
          destruct (le_lt_dec mx (S l)); [auto|right; right; left; apply quiet2; lia]]);
      destruct Heq as [Heq Hre]; apply (advanced_eqw l t dt _ w w1 w' Heq Hre);
      pose proof Heq as (E1 & E2 & E3 & _).
    - apply (body_ctx 0 l t dt sub w1 w'); try lia; try congruence.
      + intros j Hj. rewrite E3. apply Ht. lia.
      + unfold level_exists. cbn [num_levels ctx_integrator].
        destruct (Nat.ltb_spec (S l) (n_hier w1)); [lia|exact H].
    - apply (body_ctx f l t dt sub w1 w'); try lia; try congruence.
      + intros dt0 sub0 w0 w0' G1 G2 G3 t0 G4 G5 G6. apply (IH (S l) t0 dt0 sub0 w0 w0'); auto; lia.
      + intros j Hj. rewrite E3. apply Ht. lia.
      + destruct l; [lia|]. exact H.
  Qed.

  (** Levels of the hierarchy and of the context at time [T] at the beginning of a coarse step. *)
  Definition sync (T : R) (w : World U) : Prop :=
    (0 < n_hier w <= mx)%nat /\ n_data w = n_hier w /\
    (forall l, (l < n_hier w)%nat -> d_time w l = T /\ h_time w l = T) /\
    (d_regrid w 0%nat = T -> forall l, (l < n_hier w)%nat -> d_regrid w l = T).

  (** PreAdvanceLevel(0) with arbitrary regridding *)
  Lemma pre0_ctx : forall T dt w, sync T w ->
    let w1 := pre_advance_level I 0 dt (0, 1)%nat w in
    sync T w1 /\ (forall l, (l < n_hier w1)%nat -> d_regrid w1 l = T).
  Proof using code mx rr.
    clear rr_pos quiet2. intros T dt w (Hn & Hd & Ht & Hr) w1.
    unfold w1. cbn [pre_advance_level ctx_integrator]. unfold ctx_pre_advance_level, context_pre_advance_level.
    cbn [fst]. simpl (0 =? 0)%nat. cbn [andb].
    destruct (Req_EM_T (d_regrid w 0%nat) (d_time w 0%nat)) as [He|He].
    - simpl. assert (H0 : d_regrid w 0%nat = T) by (rewrite He; apply Ht; lia).
      repeat split; simpl; auto; try lia; apply Ht; auto.
    - unfold regrid_all_finer_levels. destruct (Nat.ltb_spec 0 (mx - 1)).
      + set (wr := amr_core_regrid code mx 0 w).
        assert (Hnr : (0 < n_hier wr <= mx)%nat).
        { unfold wr, amr_core_regrid. cbn [n_hier]. rewrite firstn_length. lia. }
        assert (Htr : forall l, (l < n_hier wr)%nat -> h_time wr l = T).
        { intros l Hl. unfold wr, amr_core_regrid in Hl |- *. cbn [n_hier h_time] in *.
          set (g := firstn (mx - 1 - 0) (new_grids code 0 w)) in *.
          destruct (nth_error g (l - 1)) as [[b force]|] eqn:Eg.
          - destruct (Nat.ltb_spec 0 l).
            + cbn [andb]. destruct (force || _)%bool eqn:Ef; [apply Ht; lia|].
              apply orb_false_iff in Ef as [_ Ef]. unfold boxes_of in Ef.
              destruct (Nat.ltb_spec l (n_hier w)); [apply Ht; auto|discriminate].
            + simpl. apply Ht. lia.
          - apply nth_error_None in Eg. assert (l = 0%nat) as -> by lia. apply Ht; lia. }
        destruct (Nat.ltb_spec (first_change w wr 1 (mx - 1 - 0)) mx) as [Hlt|Hge].
        * unfold with_user, reset_hierarchy_configuration. unfold sync. cbn [n_hier n_data d_time h_time d_regrid].
          split; [|exact Htr]. split; [exact Hnr|]. split; [reflexivity|].
          split; [intros l Hl; split; exact (Htr l Hl)|intros _; exact Htr].
        * destruct (first_change_lt w wr (mx - 1 - 0) 1) as [Hne|Hsame].
          { exfalso. assert (forall k i, (first_change w wr i k <= i + k)%nat) as Hle.
            { induction k as [|k IHk]; intros i; simpl; [lia|]. specialize (IHk (S i)).
              destruct (boxes_of w i), (boxes_of wr i); try destruct (Nat.eqb _ _); lia. }
            specialize (Hle (mx - 1 - 0)%nat 1%nat). lia. }
          assert (Hnn : n_hier wr = n_hier w).
          { destruct (Nat.lt_trichotomy (n_hier wr) (n_hier w)) as [Hc|[Hc|Hc]]; auto; exfalso.
            - specialize (Hsame (n_hier wr) ltac:(lia)). unfold boxes_of in Hsame.
              rewrite Nat.ltb_irrefl in Hsame. destruct (Nat.ltb_spec (n_hier wr) (n_hier w)); [discriminate|lia].
            - specialize (Hsame (n_hier w) ltac:(lia)). unfold boxes_of in Hsame.
              rewrite Nat.ltb_irrefl in Hsame. destruct (Nat.ltb_spec (n_hier w) (n_hier wr)); [discriminate|lia]. }
          assert (Hnd : n_data wr = n_data w) by reflexivity.
          assert (Hdt : d_time wr = d_time w) by reflexivity.
          unfold with_user, sync. cbn [n_hier n_data d_time h_time d_regrid].
          rewrite Hnn, Hnd, Hdt. cbn [Nat.leb andb].
          repeat split; auto; try lia.
          -- apply Ht; auto.
          -- apply Htr. congruence.
          -- intros _ l Hl. destruct (Nat.ltb_spec l (n_data w)); [apply Ht; auto|lia].
          -- intros l Hl. destruct (Nat.ltb_spec l (n_data w)); [apply Ht; auto|lia].
      + rewrite Nat.ltb_irrefl. unfold with_user, sync. cbn [n_hier n_data d_time h_time d_regrid Nat.leb andb].
        repeat split; auto; try lia.
        * apply Ht; auto.
        * apply Ht; auto.
        * intros _ l Hl. destruct (Nat.ltb_spec l (n_data w)); [apply Ht; auto|lia].
        * intros l Hl. destruct (Nat.ltb_spec l (n_data w)); [apply Ht; auto|lia].
  Qed.

  Lemma fill_finer_ctx : forall k l w, let w' := fill_finer I k l w in
    n_data w' = n_data w /\ n_hier w' = n_hier w /\ d_time w' = d_time w /\ d_cycles w' = d_cycles w /\
    h_time w' = h_time w /\ h_cycles w' = h_cycles w /\ d_regrid w' = d_regrid w.
  Proof.
    induction k as [|k IH]; intros l w; cbn [fill_finer]; [repeat split|].
    destruct (level_exists I l w); [|repeat split].
    destruct (IH (S l) (fill_ghost_two I l (l - 1) w)) as (-> & -> & -> & -> & -> & -> & ->). repeat split.
  Qed.

  Lemma advance_hier_ctx : forall fr T dt w w', sync T w ->
    advance_hierarchy_subcycle I mx fr dt w = (w', None) ->
    exists w1, w1 = pre_advance_level I 0 dt (0, 1)%nat w /\ sync T w1 /\
      advanced 0 T dt true w1 w' /\ d_regrid w' 0%nat = T.
  Proof.
    intros fr T dt w w' Hs H. unfold advance_hierarchy_subcycle in H.
    destruct (advance_level I (mx - 1) 0 dt (0, 1)%nat w) as [w2 [e|]] eqn:E; [discriminate|].
    destruct (pre0_ctx T dt w Hs) as [Hs1 Hr1].
    set (w1 := pre_advance_level I 0 dt (0, 1)%nat w) in *.
    pose proof Hs1 as (Hn1 & Hd1 & Ht1 & _).
    assert (Hadv : advanced 0 T dt true w1 w2 /\ d_regrid w2 0%nat = d_regrid w1 0%nat).
    { destruct (mx - 1)%nat as [|f] eqn:Ef; cbn [advance_level] in E; fold w1 in E.
      - apply (body_ctx 0 0 T dt (0, 1)%nat w1 w2); try lia.
        + intros j Hj. apply Ht1; lia.
        + unfold level_exists. cbn [num_levels ctx_integrator].
          destruct (Nat.ltb_spec 1 (n_hier w1)); [lia|exact E].
      - apply (body_ctx f 0 T dt (0, 1)%nat w1 w2); try lia.
        + intros dt0 sub0 w0 w0' G1 G2 G3 t0 G4 G5 G6. apply (sublevel_ctx f 1 t0 dt0 sub0 w0 w0'); auto; lia.
        + intros j Hj. apply Ht1; lia.
        + intros _. destruct (le_lt_dec (n_hier w1) 1); [auto|left]. rewrite Hr1 by lia. symmetry. apply Ht1; lia.
        + exact E. }
    exists w1. split; [reflexivity|]. split; [exact Hs1|].
    destruct Hadv as [Hadv Hd0]. rewrite (Hr1 0%nat ltac:(lia)) in Hd0.
    destruct (Nat.eqb _ 0); [|injection H as <-; split; auto].
    assert (Hw : fill_finer I mx 1 (fill_ghost_single I 0 w2) = w') by congruence. clear H.
    pose proof (fill_finer_ctx mx 1 (fill_ghost_single I 0 w2)) as G. cbv zeta in G. rewrite Hw in G.
    destruct G as (G1 & G2 & G3 & G4 & G5 & G6 & G7).
    unfold advanced in *. rewrite G1, G2, G3, G4, G5, G6, G7.
    cbn [fill_ghost_single ctx_integrator with_user n_data n_hier d_time d_cycles h_time h_cycles d_regrid].
    split; [exact Hadv|exact Hd0].
  Qed.

  (** One coarse step. *)
  Lemma coarse_step_ctx : forall fr T dt w w', 0 < dt -> sync T (ctx_pre_advance_hierarchy code w) ->
    coarse_step code mx rr fr dt w = (w', None) -> sync (T + dt) w'.
  Proof.
    intros fr T dt w w' Hdt Hs H. unfold coarse_step in H.
    destruct (advance_hierarchy_subcycle _ _ _ _ _) as [w2 [e|]] eqn:E; [discriminate|].
    injection H as <-. destruct (advance_hier_ctx _ _ _ _ _ Hs E) as (w1 & _ & Hs1 & Ha & Hr).
    destruct Hs1 as (Hn1 & Hd1 & Ht1 & _). destruct Ha as (A1 & A2 & A3 & A4 & A5 & A6).
    unfold ctx_post_advance_hierarchy, with_user, sync. cbn [n_data n_hier d_time h_time d_regrid].
    rewrite A1, A2. split; [auto|]. split; [auto|]. split.
    - intros l Hl. split; [apply A4; lia|]. destruct (Nat.ltb_spec l (n_hier w1)); [apply A4; lia|lia].
    - rewrite Hr. intros. lra.
  Qed.

  Definition startable (T : R) (w : World U) : Prop := sync T w \/ fresh mx T w.

  Lemma reset_sync : forall first T (w : World U), (0 < n_hier w <= mx)%nat ->
    (forall l, (l < n_hier w)%nat -> h_time w l = T) -> sync T (reset_hierarchy_configuration code first w).
  Proof using code mx.
    intros. unfold reset_hierarchy_configuration, sync. cbn. repeat split; auto; clear rr_pos quiet2; lia.
  Qed.

  Lemma startable_pre : forall T w, startable T w -> sync T (ctx_pre_advance_hierarchy code w).
  Proof using code mx.
    clear rr_pos quiet2. intros T w H. unfold ctx_pre_advance_hierarchy.
    assert (H1 : sync T (if Nat.eqb (n_data w) (n_hier w) then w else reset_hierarchy_configuration code 0 w)).
    { destruct H as [H|(H1 & H2 & H3)].
      - pose proof H as (_ & -> & _). rewrite Nat.eqb_refl. exact H.
      - rewrite H1. destruct (Nat.eqb_spec 0 (n_hier w)); [lia|]. apply reset_sync; auto. }
    destruct (key_mismatch code _); [|exact H1].
    apply reset_sync; [apply H1|]. intros l Hl. apply H1; auto.
  Qed.

  Lemma history_ctx : forall fr cu T w0 n t w, fresh mx T w0 ->
    history (coarse_step code mx rr fr) cu w0 n t w -> startable (T + t) w.
  Proof.
    intros fr cu T w0 n t w H0 H. induction H as [|n t w dt w' Hh IH Hdt Hs|n t w Hh IH].
    - rewrite Rplus_0_r. right; auto.
    - rewrite <- Rplus_assoc. left. apply (coarse_step_ctx fr (T + t) dt w w'); auto. apply startable_pre, IH.
    - right. destruct IH as [(A1 & A2 & A3 & _)|(A1 & A2 & A3)]; repeat split; simpl; auto; try lia; apply A3; auto.
  Qed.

  Lemma C54_lemma : forall fr cu T w0 n t w, fresh mx T w0 ->
    history (coarse_step code mx rr fr) cu w0 n t w ->
    published (T + t) w /\ clocks (T + t) w /\
    forall dt w', coarse_step code mx rr fr dt w = (w', None) -> 0 < dt ->
      forall l, (l < n_hier w')%nat -> ctx_get_time_point w' l = Some (T + t + dt) /\ h_time w' l = T + t + dt.
  Proof.
    intros fr cu T w0 n t w H0 H. pose proof (history_ctx fr cu T w0 n t w H0 H) as Hs.
    split; [|split].
    - intros l Hl. destruct Hs as [Hs|Hs]; apply Hs; auto.
    - intros l t'. unfold ctx_get_time_point. destruct (Nat.ltb_spec l (n_data w)); [|discriminate].
      intros [= <-]. destruct Hs as [(A1 & A2 & A3 & _)|(A1 & _)]; [apply A3; lia|lia].
    - intros dt w' Hst Hdt l Hl.
      assert (Hs' : sync (T + t + dt) w').
      { apply (coarse_step_ctx fr (T + t) dt w w'); auto. apply startable_pre, Hs. }
      destruct Hs' as (A1 & A2 & A3 & _). unfold ctx_get_time_point. rewrite A2.
      destruct (Nat.ltb_spec l (n_hier w')); [|lia]. destruct (A3 l Hl) as [-> ->]. auto.
  Qed.

  (** Cycle numbers *)
  Definition counted (f : nat -> nat) (w : World U) : Prop :=
    (forall l, (l < n_hier w)%nat -> h_cycles w l = f l) /\
    (forall l, (l < n_data w)%nat -> d_cycles w l = f l).

  Lemma counted_reset : forall f first w, counted f w -> counted f (reset_hierarchy_configuration code first w).
  Proof. intros f first w [H1 H2]. split; cbn; auto. Qed.

  Lemma counted_pre : forall f w, counted f w -> counted f (ctx_pre_advance_hierarchy code w).
  Proof.
    intros f w H. unfold ctx_pre_advance_hierarchy.
    destruct (Nat.eqb _ _), (key_mismatch code _); auto using counted_reset.
  Qed.

  Lemma coarse_step_counted : keeps_grids code 0 \/ (mx <= 1)%nat -> forall fr T dt w w' f,
    sync T (ctx_pre_advance_hierarchy code w) -> counted f w ->
    coarse_step code mx rr fr dt w = (w', None) ->
    n_hier w' = n_hier w /\ counted (fun l => (f l + rr ^ l)%nat) w'.
  Proof.
    intros Hk fr T dt w w' f Hs Hc H. unfold coarse_step in H.
    destruct (advance_hierarchy_subcycle _ _ _ _ _) as [w2 [e|]] eqn:E; [discriminate|].
    injection H as <-. destruct (advance_hier_ctx _ _ _ _ _ Hs E) as (w1 & Hw1 & Hs1 & Ha & Hr).
    apply counted_pre in Hc.
    assert (Hn0 : n_hier (ctx_pre_advance_hierarchy code w) = n_hier w).
    { unfold ctx_pre_advance_hierarchy. destruct (Nat.eqb _ _), (key_mismatch code _); reflexivity. }
    set (w0 := ctx_pre_advance_hierarchy code w) in *.
    destruct (pre_quiet 0 dt (0, 1)%nat w0) as [(E1 & E2 & E3 & E4 & E5 & E6) _];
      [apply Hs|destruct Hk; auto|].
    cbn [pre_advance_level ctx_integrator] in Hw1. rewrite <- Hw1 in *.
    destruct Hs1 as (Hn1 & Hd1 & Ht1 & _). destruct Ha as (A1 & A2 & A3 & A4 & A5 & A6).
    destruct Hs as (S1 & S2 & _). destruct Hc as [C1 C2].
    unfold ctx_post_advance_hierarchy, with_user, counted. cbn [n_data n_hier d_cycles h_cycles].
    split; [congruence|].
    assert (Hd : forall l, (l < n_hier w1)%nat -> d_cycles w2 l = (f l + rr ^ l)%nat).
    { intros l Hl. destruct (A4 l ltac:(lia)) as [_ ->]. rewrite E4, C2 by lia. rewrite Nat.sub_0_r. reflexivity. }
    rewrite A1, A2. split.
    - intros l Hl. destruct (Nat.ltb_spec l (n_hier w1)); [auto|lia].
    - intros l Hl. apply Hd. lia.
  Qed.

  Lemma C54_cycles_lemma : keeps_grids code 0 \/ (mx <= 1)%nat -> forall fr cu T w0 n t w, fresh mx T w0 ->
    history (coarse_step code mx rr fr) cu w0 n t w ->
    n_hier w = n_hier w0 /\
    (forall l, (l < n_hier w)%nat -> h_cycles w l = (h_cycles w0 l + n * rr ^ l)%nat) /\
    (forall l c, (l < n_hier w)%nat -> ctx_get_cycles w l = Some c -> c = (h_cycles w0 l + n * rr ^ l)%nat).
  Proof.
    intros Hk fr cu T w0 n t w H0 H.
    assert (G : n_hier w = n_hier w0 /\ counted (fun l => (h_cycles w0 l + n * rr ^ l)%nat) w).
    { induction H as [|n t w dt w' Hh IH Hdt Hs|n t w Hh IH].
      - destruct H0 as (A1 & _). split; auto. split; intros l Hl; [simpl; lia|lia].
      - destruct IH as [IH1 IH2].
        destruct (coarse_step_counted Hk fr (T + t) dt w w' _ (startable_pre _ _ (history_ctx _ _ _ _ _ _ _ H0 Hh)) IH2 Hs)
          as [B1 [B2 B3]].
        split; [congruence|]. split; intros l Hl; [rewrite B2 by auto|rewrite B3 by auto]; simpl; lia.
      - destruct IH as [IH1 [IH2 _]]. split; [exact IH1|]. split; [exact IH2|]. intros l Hl. simpl in Hl. lia. }
    destruct G as [G1 [G2 G3]]. split; [auto|]. split; [auto|].
    intros l c Hl. unfold ctx_get_cycles. destruct (Nat.ltb_spec l (n_data w)); [|discriminate].
    intros [= <-]. auto.
  Qed.

  (** The cycle number of the coarsest level counts the coarse steps, whatever is regridded. *)
  Definition counted0 (c : nat) (w : World U) : Prop :=
    h_cycles w 0%nat = c /\ ((0 < n_data w)%nat -> d_cycles w 0%nat = c).

  Lemma counted0_pre : forall f w, counted0 f w -> counted0 f (ctx_pre_advance_hierarchy code w).
  Proof.
    intros f w H. unfold ctx_pre_advance_hierarchy.
    destruct (Nat.eqb _ _), (key_mismatch code _); destruct H; split; cbn; auto.
  Qed.

  Lemma counted0_pre_level : forall c dt sub w, (0 < n_data w)%nat -> counted0 c w ->
    counted0 c (ctx_pre_advance_level code mx 0 dt sub w) /\
    (0 < n_data (ctx_pre_advance_level code mx 0 dt sub w))%nat.
  Proof.
    intros c dt sub w Hd H. unfold ctx_pre_advance_level, context_pre_advance_level.
    destruct (_ && _)%bool; [|split; [exact H|exact Hd]].
    unfold regrid_all_finer_levels. destruct (Nat.ltb 0 (mx - 1)).
    - assert (Hh : h_cycles (amr_core_regrid code mx 0 w) 0%nat = h_cycles w 0%nat).
      { unfold amr_core_regrid. cbn [h_cycles]. destruct (nth_error _ (0 - 1)) as [[b fo]|]; reflexivity. }
      destruct H as [H1 H2].
      destruct (Nat.ltb _ mx).
      + split; [|cbn; lia].
        split; [|intros _]; unfold reset_hierarchy_configuration, with_user; cbn [h_cycles d_cycles]; congruence.
      + split; [|exact Hd].
        split; [|intros _]; unfold with_user; cbn [h_cycles d_cycles]; [congruence|apply H2; auto].
    - rewrite Nat.ltb_irrefl. split; [exact H|exact Hd].
  Qed.

  Lemma coarse_step_counted0 : forall fr T dt w w' c,
    sync T (ctx_pre_advance_hierarchy code w) -> counted0 c w ->
    coarse_step code mx rr fr dt w = (w', None) -> counted0 (S c) w'.
  Proof.
    intros fr T dt w w' c Hs Hc H. unfold coarse_step in H.
    destruct (advance_hierarchy_subcycle _ _ _ _ _) as [w2 [e|]] eqn:E; [discriminate|].
    injection H as <-. destruct (advance_hier_ctx _ _ _ _ _ Hs E) as (w1 & Hw1 & Hs1 & Ha & Hr).
    apply counted0_pre in Hc. set (w0 := ctx_pre_advance_hierarchy code w) in *.
    destruct (counted0_pre_level c dt (0, 1)%nat w0) as [Hc1 Hd1]; auto; [destruct Hs as (? & -> & _); lia|].
    cbn [pre_advance_level ctx_integrator] in Hw1. rewrite <- Hw1 in *.
    destruct Hs1 as (Hn1 & Hd1' & Ht1 & _). destruct Ha as (A1 & A2 & A3 & A4 & A5 & A6).
    destruct Hc1 as [C1 C2].
    assert (G : d_cycles w2 0%nat = S c).
    { destruct (A4 0%nat ltac:(lia)) as [_ ->]. rewrite C2 by auto. simpl. lia. }
    unfold ctx_post_advance_hierarchy, with_user, counted0. cbn [n_data n_hier d_cycles h_cycles].
    rewrite A2. destruct (Nat.ltb_spec 0 (n_hier w1)); [auto|lia].
  Qed.

  Lemma C54_coarse_cycles_lemma : forall fr cu T w0 n t w, fresh mx T w0 ->
    history (coarse_step code mx rr fr) cu w0 n t w ->
    h_cycles w 0%nat = (h_cycles w0 0%nat + n)%nat /\
    (forall c, ctx_get_cycles w 0 = Some c -> c = (h_cycles w0 0%nat + n)%nat).
  Proof.
    intros fr cu T w0 n t w H0 H.
    assert (G : counted0 (h_cycles w0 0%nat + n)%nat w).
    { induction H as [|n t w dt w' Hh IH Hdt Hs|n t w Hh IH].
      - destruct H0 as (A1 & _). split; lia.
      - rewrite Nat.add_succ_r.
        apply (coarse_step_counted0 fr (T + t) dt w w' _ (startable_pre _ _ (history_ctx _ _ _ _ _ _ _ H0 Hh)) IH Hs).
      - destruct IH as [IH1 _]. split; [exact IH1|]. simpl. lia. }
    destruct G as [G1 G2]. split; [auto|].
    intros c. unfold ctx_get_cycles. destruct (Nat.ltb_spec 0 (n_data w)); [|discriminate].
    intros [= <-]. auto.
  Qed.
End Ctx.

(** Publication: a sub-cycle of level [l] that is not the last one leaves the published time and cycle
    number of level [l] and of all coarser levels alone. *)
Section Publication.
  Context {U : Type}.
  Variable code : Code U.
  Variables mx rr : nat.
  Notation I := (ctx_integrator code mx rr).

  Definition keeps_published (j : nat) (w w' : World U) : Prop :=
    h_time w' j = h_time w j /\ h_cycles w' j = h_cycles w j.

  Lemma finish_published : forall l dt sub w j, (j < l \/ (j = l /\ fst sub <> snd sub - 1))%nat ->
    keeps_published j w (fst (finish_level I l dt sub w)).
  Proof.
    intros l dt sub w j Hj. unfold finish_level.
    assert (Hpost : forall v, keeps_published j w v ->
                    keeps_published j w (fst (post_advance_level I l dt sub v))).
    { intros v [V1 V2]. cbn [post_advance_level ctx_integrator ctx_post_advance_level fst].
      unfold keeps_published. cbn [h_time h_cycles].
      destruct (Nat.eqb_spec (fst sub) (snd sub - 1)); [|auto].
      unfold set_at. destruct (Nat.eqb_spec j l); [lia|auto]. }
    assert (Hu : forall v u, keeps_published j w v -> keeps_published j w (with_user v u)) by (intros v u V; exact V).
    cbn [advance_nonrecursively ctx_integrator].
    destruct (c_advance code l dt sub w) as [u [e|]]; cbn [fst]; [split; reflexivity|].
    set (w1 := with_user w u). assert (H1 : keeps_published j w w1) by (split; reflexivity).
    clearbody w1. apply Hpost. repeat match goal with |- context [if ?b then _ else _] => destruct b end; exact H1.
  Qed.

  Lemma pre_published : forall l dt sub w j, (j <= l)%nat ->
    keeps_published j w (pre_advance_level I l dt sub w).
  Proof.
    intros l dt sub w j Hj. cbn [pre_advance_level ctx_integrator].
    unfold ctx_pre_advance_level, context_pre_advance_level.
    destruct (_ && _)%bool; [|split; reflexivity].
    unfold regrid_all_finer_levels. destruct (Nat.ltb l (mx - 1)).
    - assert (Hh : keeps_published j w (amr_core_regrid code mx l w)).
      { unfold keeps_published, amr_core_regrid. cbn [h_time h_cycles].
        destruct (nth_error _ (j - S l)) as [[b fo]|]; [|auto].
        destruct (Nat.ltb_spec l j); [lia|auto]. }
      destruct (Nat.ltb _ mx); exact Hh.
    - rewrite Nat.ltb_irrefl. split; reflexivity.
  Qed.

  Lemma C54_publication_lemma : forall finer l dt sub w j, (j < l \/ (j = l /\ fst sub <> snd sub - 1))%nat ->
    keeps_published j w (fst (advance_level I finer l dt sub w)).
  Proof.
    assert (tr : forall j a b c, keeps_published j a b -> keeps_published j b c -> keeps_published j a c).
    { intros j a b c [A1 A2] [B1 B2]. split; congruence. }
    assert (loop : forall (body : nat -> World U -> World U * Result) j,
      (forall r w, keeps_published j w (fst (body r w))) ->
      forall k r w, keeps_published j w (fst (for_subcycles body r k w))).
    { intros body j Hb. induction k as [|k IH]; intros r w; cbn [for_subcycles fst]; [split; reflexivity|].
      specialize (Hb r w). destruct (body r w) as [w1 [e|]]; cbn [fst] in *; [auto|]. eapply tr; eauto. }
    induction finer as [|f IH]; intros l dt sub w j Hj; cbn [advance_level];
      (eapply tr; [apply (pre_published l dt sub w j); lia|]).
    - apply finish_published; auto.
    - set (w1 := pre_advance_level I l dt sub w). clearbody w1.
      destruct (level_exists I (S l) w1); [|apply finish_published; auto].
      eapply tr with (b := reset_coarse_fine_fluxes I (S l) l w1); [split; reflexivity|].
      set (w2 := reset_coarse_fine_fluxes I (S l) l w1). clearbody w2.
      match goal with |- context [for_subcycles ?b ?r ?k w2] =>
        pose proof (loop b j) as L; specialize (L ltac:(intros; apply IH; lia) k r w2);
        destruct (for_subcycles b r k w2) as [w3 [e|]] end; cbn [fst] in *; [exact L|].
      eapply tr; [exact L|]. apply finish_published; auto.
  Qed.
End Publication.

Section NoSub.
  Context {U : Type}.
  Variable code : Code U.
  Variables mx rr : nat.
  Notation I := (ctx_integrator code mx rr).

  Definition advancedN (l : nat) (T dt : R) (w w' : World U) : Prop :=
    n_data w' = n_data w /\ n_hier w' = n_hier w /\ (forall j, d_regrid w' j = d_regrid w j) /\
    (forall j, (j < l)%nat -> d_time w' j = d_time w j /\ d_cycles w' j = d_cycles w j) /\
    (forall j, (l <= j < n_hier w)%nat -> d_time w' j = T + dt /\ d_cycles w' j = S (d_cycles w j)).

  Lemma finish_nosub_ctx : forall l dt w w',
    finish_level_nosub I l dt w = (w', None) ->
    n_data w' = n_data w /\ n_hier w' = n_hier w /\
    d_time w' = set_at (d_time w) l (d_time w l + dt) /\
    d_cycles w' = set_at (d_cycles w) l (S (d_cycles w l)) /\
    d_regrid w' = d_regrid w.
  Proof.
    intros l dt w w' H. unfold finish_level_nosub, level_exists in H.
    cbn [advance_nonrecursively num_levels apply_flux_correction coarsen_conservatively complete_from_cons
         copy_scratch_to_data post_advance_level ctx_integrator] in H.
    destruct (c_advance code l dt (0, 1)%nat w) as [u [e|]]; [discriminate|].
    cbn [n_hier with_user] in H.
    destruct (Nat.ltb (S l) (n_hier w)), l; cbn in H; injection H as <-; cbn; repeat split.
  Qed.

  Lemma body_nosub : forall finer l T dt w w',
    (forall w w', (S l < n_hier w)%nat -> n_data w = n_hier w -> (n_hier w <= mx)%nat ->
       (forall j, (S l <= j < n_hier w)%nat -> d_time w j = T /\ d_regrid w j = T) ->
       advance_level_nosub I finer (S l) dt w = (w', None) -> advancedN (S l) T dt w w') ->
    (l < n_hier w)%nat -> n_data w = n_hier w -> (n_hier w <= mx)%nat ->
    (forall j, (l <= j < n_hier w)%nat -> d_time w j = T /\ d_regrid w j = T) ->
    (if level_exists I (S l) w then
       match advance_level_nosub I finer (S l) dt (reset_coarse_fine_fluxes I (S l) l w) with
       | (w3, Some e) => (w3, Some e)
       | (w3, None) => finish_level_nosub I l dt w3
       end
     else finish_level_nosub I l dt w) = (w', None) ->
    advancedN l T dt w w'.
  Proof.
    intros finer l T dt w w' IH Hl Hd Hmx Ht H.
    unfold level_exists in H. cbn [num_levels ctx_integrator] in H.
    destruct (Nat.ltb_spec (S l) (n_hier w)) as [Hex|Hex].
    - destruct (advance_level_nosub _ _ _ _ _) as [w3 [e|]] eqn:E; [discriminate|].
      destruct (IH (reset_coarse_fine_fluxes I (S l) l w) w3) as (A1 & A2 & A3 & A4 & A5); auto.
      { intros j Hj. apply Ht. cbn in Hj. lia. }
      cbn [reset_coarse_fine_fluxes ctx_integrator with_user d_time h_time d_cycles h_cycles n_hier d_regrid n_data] in *.
      destruct (finish_nosub_ctx _ _ _ _ H) as (F1 & F2 & F3 & F4 & F5).
      unfold advancedN. rewrite F1, F2, F3, F4, F5.
      split; [auto|]. split; [auto|]. split; [auto|]. split.
      + intros j Hj. unfold set_at. destruct (Nat.eqb_spec j l); [lia|]. apply A4. lia.
      + intros j Hj. unfold set_at. destruct (Nat.eqb_spec j l) as [->|].
        * destruct (A4 l ltac:(lia)) as [-> ->]. destruct (Ht l ltac:(lia)) as [-> _]. auto.
        * apply A5. lia.
    - destruct (finish_nosub_ctx _ _ _ _ H) as (F1 & F2 & F3 & F4 & F5).
      unfold advancedN. rewrite F1, F2, F3, F4, F5.
      split; [auto|]. split; [auto|]. split; [auto|]. split.
      + intros j Hj. unfold set_at. destruct (Nat.eqb_spec j l); [lia|]. auto.
      + intros j Hj. assert (j = l) as -> by lia. unfold set_at. rewrite Nat.eqb_refl.
        destruct (Ht l ltac:(lia)) as [-> _]. auto.
  Qed.

  Lemma sublevel_nosub : forall finer l T dt w w',
    (l < n_hier w)%nat -> n_data w = n_hier w -> (n_hier w <= mx)%nat -> (mx <= l + finer + 1)%nat ->
    (forall j, (l <= j < n_hier w)%nat -> d_time w j = T /\ d_regrid w j = T) ->
    advance_level_nosub I finer l dt w = (w', None) -> advancedN l T dt w w'.
  Proof.
    induction finer as [|f IH]; intros l T dt w w' Hl Hd Hmx Hf Ht H; cbn [advance_level_nosub] in H;
    assert (Hp : exists u, pre_advance_level I l dt (0, 1)%nat w = with_user w u) by
     (cbn [pre_advance_level ctx_integrator]; unfold ctx_pre_advance_level, context_pre_advance_level; cbn [fst];
      destruct (Ht l ltac:(lia)) as [-> ->];
      destruct (Req_EM_T T T) as [_|F]; [rewrite andb_false_r; eauto|contradiction]);
    destruct Hp as [u Hp]; rewrite Hp in H;
    change (advancedN l T dt (with_user w u) w').
    - apply (body_nosub 0 l T dt (with_user w u) w'); auto.
      + intros. cbn in Hl. lia.
      + unfold level_exists. cbn [num_levels ctx_integrator with_user n_hier].
        destruct (Nat.ltb_spec (S l) (n_hier w)); [lia|exact H].
    - apply (body_nosub f l T dt (with_user w u) w'); auto.
      intros. apply (IH (S l) T dt w0 w'0); auto; lia.
  Qed.

  Lemma coarse_step_nosub_ctx : forall T dt w w', 0 < dt -> sync mx T (ctx_pre_advance_hierarchy code w) ->
    coarse_step_nosub code mx rr dt w = (w', None) -> sync mx (T + dt) w'.
  Proof.
    intros T dt w w' Hdt Hs H. unfold coarse_step_nosub in H.
    destruct (advance_hierarchy_nosub _ _ _ _) as [w2 [e|]] eqn:E; [discriminate|].
    injection H as <-. unfold advance_hierarchy_nosub in E.
    destruct (pre0_ctx code mx rr T dt _ Hs) as [Hs1 Hr1].
    set (w0 := ctx_pre_advance_hierarchy code w) in *.
    set (w1 := pre_advance_level I 0 dt (0, 1)%nat w0) in *.
    pose proof Hs1 as (Hn1 & Hd1 & Ht1 & _).
    assert (Ha : advancedN 0 T dt w1 w2).
    { destruct (mx - 1)%nat as [|f] eqn:Ef; cbn [advance_level_nosub] in E; fold w1 in E.
      - apply (body_nosub 0 0 T dt w1 w2); try lia.
        + intros j Hj. split; [apply Ht1; lia|apply Hr1; lia].
        + unfold level_exists. cbn [num_levels ctx_integrator].
          destruct (Nat.ltb_spec 1 (n_hier w1)); [lia|exact E].
      - apply (body_nosub f 0 T dt w1 w2); try lia.
        + intros v v' G1 G2 G3 G4 G5. apply (sublevel_nosub f 1 T dt v v'); auto; lia.
        + intros j Hj. split; [apply Ht1; lia|apply Hr1; lia].
        + exact E. }
    destruct Ha as (A1 & A2 & A3 & A4 & A5).
    unfold ctx_post_advance_hierarchy, with_user, sync. cbn [n_data n_hier d_time h_time d_regrid].
    rewrite A1, A2. split; [auto|]. split; [auto|]. split.
    - intros l Hl. split; [apply A5; lia|]. destruct (Nat.ltb_spec l (n_hier w1)); [apply A5; lia|lia].
    - rewrite A3, Hr1 by lia. intros. lra.
  Qed.

  Lemma history_nosub_ctx : forall cu T w0 n t w, fresh mx T w0 ->
    history (coarse_step_nosub code mx rr) cu w0 n t w -> startable mx (T + t) w.
  Proof.
    intros cu T w0 n t w H0 H. induction H as [|n t w dt w' Hh IH Hdt Hs|n t w Hh IH].
    - rewrite Rplus_0_r. right; auto.
    - rewrite <- Rplus_assoc. left. apply (coarse_step_nosub_ctx (T + t) dt w w'); auto.
      apply (startable_pre code mx), IH.
    - right. destruct IH as [(A1 & A2 & A3 & _)|(A1 & A2 & A3)]; repeat split; simpl; auto; try lia; apply A3; auto.
  Qed.

  Lemma C54_nosub_lemma : forall cu T w0 n t w, fresh mx T w0 ->
    history (coarse_step_nosub code mx rr) cu w0 n t w ->
    published (T + t) w /\ clocks (T + t) w /\
    forall dt w', coarse_step_nosub code mx rr dt w = (w', None) -> 0 < dt ->
      forall l, (l < n_hier w')%nat -> ctx_get_time_point w' l = Some (T + t + dt) /\ h_time w' l = T + t + dt.
  Proof.
    intros cu T w0 n t w H0 H. pose proof (history_nosub_ctx cu T w0 n t w H0 H) as Hs.
    split; [|split].
    - intros l Hl. destruct Hs as [Hs|Hs]; apply Hs; auto.
    - intros l t'. unfold ctx_get_time_point. destruct (Nat.ltb_spec l (n_data w)); [|discriminate].
      intros [= <-]. destruct Hs as [(A1 & A2 & A3 & _)|(A1 & _)]; [apply A3; lia|lia].
    - intros dt w' Hst Hdt l Hl.
      assert (Hs' : sync mx (T + t + dt) w').
      { apply (coarse_step_nosub_ctx (T + t) dt w w'); auto. apply (startable_pre code mx), Hs. }
      destruct Hs' as (A1 & A2 & A3 & _). unfold ctx_get_time_point. rewrite A2.
      destruct (Nat.ltb_spec l (n_hier w')); [|lia]. destruct (A3 l Hl) as [-> ->]. auto.
  Qed.
End NoSub.

Lemma C58_copy_lemma : forall (U : Type) (code : Code U) copy_user w, (0 < n_hier w)%nat ->
  let w' := ctx_pre_advance_hierarchy code (ctx_copy copy_user w) in
  n_hier w' = n_hier w /\
  forall l, (l < n_hier w)%nat ->
    ctx_get_time_point w' l = Some (h_time w l) /\ ctx_get_cycles w' l = Some (h_cycles w l) /\
    h_time w' l = h_time w l /\ h_cycles w' l = h_cycles w l /\ h_boxes w' l = h_boxes w l.
Proof.
  intros U code cu w Hn w'. unfold w', ctx_pre_advance_hierarchy.
  cbn [n_data n_hier ctx_copy]. destruct (Nat.eqb_spec 0 (n_hier w)); [lia|].
  destruct (key_mismatch code _); cbn [n_hier reset_hierarchy_configuration ctx_copy]; (split; [reflexivity|]);
  intros l Hl; unfold ctx_get_time_point, ctx_get_cycles; cbn [n_data d_time d_cycles h_time h_cycles h_boxes n_hier
    reset_hierarchy_configuration ctx_copy];
  apply Nat.ltb_lt in Hl; rewrite Hl; repeat split.
Qed.
