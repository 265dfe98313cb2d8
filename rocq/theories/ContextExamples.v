(** Concrete contexts for the examples; not code of /repo. *)
From Coq Require Import Reals List Arith Lia Lra Bool.
From Verif Require Import SplitModel SubcycleModel SubcycleSpec SubcycleProofs ContextModel ContextSpec ContextProofs.
Import ListNotations.
Local Open Scope R_scope.

(** User code without state that never fails; [grids] decides about regridding. *)
Definition ex_code (grids : nat -> World unit -> list (nat * bool)) : Code unit :=
  {| new_grids := grids; move_data := fun _ _ => tt; define_data := fun _ _ => tt;
     after_pre := fun _ _ _ _ _ => tt; key_mismatch := fun _ => false; feedback := fun _ _ => tt;
     c_stable_dt := fun _ _ => 1; c_reset := fun _ _ _ => tt; c_advance := fun _ _ _ _ => (tt, None);
     c_correct := fun _ _ _ _ => tt; c_coarsen := fun _ _ _ => tt; c_complete := fun _ _ _ => tt;
     c_copy := fun _ _ => tt; c_fill1 := fun _ _ => tt; c_fill2 := fun _ _ _ => tt |}.

(** A new context at time 0 with [n] levels. *)
Definition ex_world (n : nat) : World unit :=
  mkWorld 0 (fun _ => 0) (fun _ => 0) (fun _ => O) n (fun _ => 0) (fun _ => O) (fun l => l) tt.

Lemma ex_world_fresh : forall n mx, (0 < n <= mx)%nat -> fresh mx 0 (ex_world n).
Proof. intros n mx H. split; [reflexivity|]. split; [exact H|reflexivity]. Qed.

(** Successful steps exist: nothing here ever fails. *)
Section Total.
  Variable grids : nat -> World unit -> list (nat * bool).
  Variables mx rr : nat.
  Notation I := (ctx_integrator (ex_code grids) mx rr).

  Lemma total_finish : forall l dt sub w, exists w', finish_level I l dt sub w = (w', None).
  Proof. intros. unfold finish_level. cbn. eexists; reflexivity. Qed.

  Lemma total_loop : forall (body : nat -> World unit -> World unit * Result),
    (forall r w, exists w', body r w = (w', None)) ->
    forall k r w, exists w', for_subcycles body r k w = (w', None).
  Proof.
    intros body H. induction k as [|k IH]; intros r w; cbn [for_subcycles]; [eauto|].
    destruct (H r w) as [w1 ->]. apply IH.
  Qed.

  Lemma total_advance : forall finer l dt sub w, exists w', advance_level I finer l dt sub w = (w', None).
  Proof.
    induction finer as [|f IH]; intros l dt sub w; cbn [advance_level]; [apply total_finish|].
    destruct (level_exists _ _ _); [|apply total_finish].
    match goal with |- context [for_subcycles ?b ?r ?k ?v] =>
      destruct (total_loop b ltac:(intros; apply IH) k r v) as [w3 ->] end.
    apply total_finish.
  Qed.

  Lemma total_step : forall fr dt w, exists w', coarse_step (ex_code grids) mx rr fr dt w = (w', None).
  Proof.
    intros fr dt w. unfold coarse_step, advance_hierarchy_subcycle.
    destruct (total_advance (mx - 1) 0 dt (0, 1)%nat (ctx_pre_advance_hierarchy (ex_code grids) w)) as [w1 ->].
    destruct (Nat.eqb _ 0); eexists; reflexivity.
  Qed.

  Lemma total_finish_nosub : forall l dt w, exists w', finish_level_nosub I l dt w = (w', None).
  Proof. intros. unfold finish_level_nosub. cbn. eexists; reflexivity. Qed.

  Lemma total_advance_nosub : forall finer l dt w, exists w', advance_level_nosub I finer l dt w = (w', None).
  Proof.
    induction finer as [|f IH]; intros l dt w; cbn [advance_level_nosub]; [apply total_finish_nosub|].
    destruct (level_exists _ _ _); [|apply total_finish_nosub].
    match goal with |- context [advance_level_nosub ?i f ?l ?d ?v] => destruct (IH l d v) as [w3 ->] end.
    apply total_finish_nosub.
  Qed.

  Lemma total_step_nosub : forall dt w, exists w', coarse_step_nosub (ex_code grids) mx rr dt w = (w', None).
  Proof.
    intros dt w. unfold coarse_step_nosub, advance_hierarchy_nosub.
    destruct (total_advance_nosub (mx - 1) 0 dt (ctx_pre_advance_hierarchy (ex_code grids) w)) as [w1 ->].
    eexists; reflexivity.
  Qed.
End Total.

Lemma ex_history : forall grids mx rr fr n (w0 : World unit),
  exists w, history (coarse_step (ex_code grids) mx rr fr) (fun u => u) w0 n (INR n) w.
Proof.
  intros grids mx rr fr; induction n as [|n IH]; intros w0; [exists w0; apply h_start|].
  destruct (IH w0) as [w Hw]. destruct (total_step grids mx rr fr 1 (ctx_copy (fun u => u) w)) as [w' H].
  exists w'. rewrite S_INR. apply (h_step _ _ _ n (INR n) (ctx_copy (fun u => u) w) 1); auto; [|lra].
  apply h_restore, Hw.
Qed.

Lemma ex_history_nosub : forall grids mx rr n (w0 : World unit),
  exists w, history (coarse_step_nosub (ex_code grids) mx rr) (fun u => u) w0 n (INR n) w.
Proof.
  intros grids mx rr; induction n as [|n IH]; intros w0; [exists w0; apply h_start|].
  destruct (IH w0) as [w Hw]. destruct (total_step_nosub grids mx rr 1 (ctx_copy (fun u => u) w)) as [w' H].
  exists w'. rewrite S_INR. apply (h_step _ _ _ n (INR n) (ctx_copy (fun u => u) w) 1); auto; [|lra].
  apply h_restore, Hw.
Qed.

(** Regridding that keeps everything ... *)
Definition ex_keep (which : nat) (w : World unit) : list (nat * bool) :=
  map (fun l => (h_boxes w l, false)) (seq (S which) (n_hier w - S which)).
Lemma ex_keep_keeps : forall which, keeps_grids (ex_code ex_keep) which.
Proof. intros which w. reflexivity. Qed.
(** ... that always rebuilds every finer level on different grids up to level 2 ... *)
Definition ex_churn (which : nat) (w : World unit) : list (nat * bool) :=
  map (fun l => (S (h_boxes w l), true)) (seq (S which) (2 - which)).
(** ... and that creates a third refined level when level 2 asks for it. *)
Definition ex_deep (which : nat) (w : World unit) : list (nat * bool) :=
  if Nat.eqb which 2 then [(7%nat, false)] else ex_keep which w.

(** Symbolic run with four levels and [ex_deep]. *)
Section Deep.
  Notation code := (ex_code ex_deep).
  Notation I := (ctx_integrator code 4 2).

  Definition tracks (w : World unit) (n : nat) (ds rs hs : list R) : Prop :=
    n_data w = n /\ n_hier w = n /\
    (forall j, (j < n)%nat -> d_time w j = nth j ds 0 /\ d_regrid w j = nth j rs 0 /\ h_time w j = nth j hs 0).

  Fixpoint upd (l : nat) (v : R) (xs : list R) : list R :=
    match l, xs with
    | _, [] => []
    | O, _ :: r => v :: r
    | S k, a :: r => a :: upd k v r
    end.

  Lemma nth_upd : forall xs l v j, (l < length xs)%nat ->
    nth j (upd l v xs) 0 = if Nat.eqb j l then v else nth j xs 0.
  Proof.
    induction xs as [|x xs IH]; intros [|l] v [|j] H; simpl in *; try lia; auto. apply IH. lia.
  Qed.

  Lemma tracks_finish : forall w n ds rs hs l dt sub w', tracks w n ds rs hs ->
    finish_level I l dt sub w = (w', None) -> Nat.ltb l n = true ->
    (n <= length ds)%nat -> (n <= length hs)%nat ->
    tracks w' n (upd l (nth l ds 0 + dt) ds) rs
      (if Nat.eqb (fst sub) (snd sub - 1) then upd l (nth l ds 0 + dt) hs else hs).
  Proof.
    intros w n ds rs hs l dt sub w' (T1 & T2 & T3) H Hl Hd Hh. apply Nat.ltb_lt in Hl.
    destruct (finish_ctx code 4 2 _ _ _ _ _ H) as (F1 & F2 & F3 & F4 & F5 & F6 & F7).
    unfold tracks. rewrite F1, F2, F3, F5, F7. split; [auto|]. split; [auto|].
    intros j Hj. destruct (T3 j Hj) as (J1 & J2 & J3). destruct (T3 l Hl) as (L1 & L2 & L3).
    unfold is_last. rewrite nth_upd by lia. unfold set_at.
    split; [destruct (Nat.eqb j l); [rewrite L1|]; auto|]. split; [auto|].
    destruct (Nat.eqb (fst sub) _); [|auto]. rewrite nth_upd by lia. destruct (Nat.eqb j l); [rewrite L1|]; auto.
  Qed.

  Lemma tracks_pre : forall w n ds rs hs l dt sub, tracks w n ds rs hs -> Nat.ltb l n = true ->
    (fst sub <> 0%nat \/ nth l rs 0 = nth l ds 0) ->
    tracks (pre_advance_level I l dt sub w) n ds rs hs.
  Proof.
    intros w n ds rs hs l dt sub T Hl Hq. apply Nat.ltb_lt in Hl. cbn [pre_advance_level ctx_integrator].
    unfold ctx_pre_advance_level, context_pre_advance_level.
    destruct (Nat.eqb_spec (fst sub) 0) as [E|E]; [|exact T].
    destruct (Req_EM_T (d_regrid w l) (d_time w l)) as [He|He]; [exact T|].
    exfalso. destruct T as (_ & _ & T3). destruct (T3 l Hl) as (J1 & J2 & _). destruct Hq; congruence.
  Qed.

  Lemma tracks_pre_deep : forall w ds rs h0 h1 h2 dt, tracks w 3 ds rs [h0; h1; h2] ->
    nth 2 rs 0 <> nth 2 ds 0 ->
    tracks (pre_advance_level I 2 dt (0, 2)%nat w) 4 [h0; h1; h2; h2] [h0; h1; h2; h2] [h0; h1; h2; h2].
  Proof.
    intros w ds rs h0 h1 h2 dt (T1 & T2 & T3) Hq. cbn [pre_advance_level ctx_integrator].
    unfold ctx_pre_advance_level, context_pre_advance_level. cbn [fst Nat.eqb andb].
    destruct (T3 2%nat ltac:(lia)) as (J1 & J2 & J3).
    destruct (Req_EM_T (d_regrid w 2%nat) (d_time w 2%nat)) as [He|He]; [congruence|].
    unfold regrid_all_finer_levels, amr_core_regrid, boxes_of, first_change.
    cbn [Nat.ltb Nat.leb Nat.sub new_grids ex_code ex_deep Nat.eqb firstn nth_error length Nat.add boxes_of n_hier h_boxes].
    unfold boxes_of. cbn [n_hier h_boxes]. rewrite T2. cbn.
    unfold tracks. cbn [n_data n_hier d_time d_regrid h_time]. split; [reflexivity|]. split; [reflexivity|].
    destruct (T3 0%nat ltac:(lia)) as (_ & _ & K0). destruct (T3 1%nat ltac:(lia)) as (_ & _ & K1).
    cbn [nth] in J3, K0, K1.
    intros [|[|[|[|j]]]] Hj; try lia; cbn; auto.
  Qed.

  Lemma tracks_reset : forall w n ds rs hs f c, tracks w n ds rs hs ->
    tracks (reset_coarse_fine_fluxes I f c w) n ds rs hs.
  Proof. intros. exact H. Qed.

  Lemma tracks_exists : forall w n ds rs hs l, tracks w n ds rs hs -> level_exists I l w = Nat.ltb l n.
  Proof. intros w n ds rs hs l (_ & H & _). unfold level_exists. cbn. rewrite H. reflexivity. Qed.

  (** a level without finer level *)
  Lemma tracks_leaf : forall finer w n ds rs hs l dt sub w', tracks w n ds rs hs -> 
    advance_level I finer l dt sub w = (w', None) -> n = S l ->
    (n <= length ds)%nat -> (n <= length hs)%nat ->
    (fst sub <> 0%nat \/ nth l rs 0 = nth l ds 0) ->
    tracks w' n (upd l (nth l ds 0 + dt) ds) rs
      (if Nat.eqb (fst sub) (snd sub - 1) then upd l (nth l ds 0 + dt) hs else hs).
  Proof.
    intros finer w n ds rs hs l dt sub w' T H Hn Hd Hh Hq.
    pose proof (tracks_pre w n ds rs hs l dt sub T (proj2 (Nat.ltb_lt l n) ltac:(lia)) Hq) as Tp.
    destruct finer; cbn [advance_level] in H; [eapply tracks_finish; [exact Tp|exact H|apply Nat.ltb_lt; lia|lia|lia]|].
    rewrite (tracks_exists _ _ _ _ _ _ Tp) in H. replace (Nat.ltb (S l) n) with false in H
      by (symmetry; apply Nat.ltb_ge; lia).
    eapply tracks_finish; [exact Tp|exact H|apply Nat.ltb_lt; lia|lia|lia].
  Qed.

  (** a level whose next finer level makes two steps *)
  Lemma tracks_node : forall finer w n ds rs hs l dt sub w',
    advance_level I (S finer) l dt sub w = (w', None) ->
    tracks (pre_advance_level I l dt sub w) n ds rs hs -> Nat.ltb (S l) n = true ->
    exists v1 v2, advance_level I finer (S l) (dt / INR 2) (0, 2)%nat
                    (reset_coarse_fine_fluxes I (S l) l (pre_advance_level I l dt sub w)) = (v1, None) /\
      advance_level I finer (S l) (dt / INR 2) (1, 2)%nat v1 = (v2, None) /\
      finish_level I l dt sub v2 = (w', None).
  Proof.
    intros finer w n ds rs hs l dt sub w' H Tp Hn. cbn [advance_level] in H.
    rewrite (tracks_exists _ _ _ _ _ _ Tp) in H. rewrite Hn in H.
    cbn [ratio_to_coarser ctx_integrator for_subcycles] in H.
    destruct (advance_level I finer (S l) (dt / INR 2) (0, 2)%nat _) as [v1 [e|]] eqn:E1; [discriminate|].
    destruct (advance_level I finer (S l) (dt / INR 2) (1, 2)%nat v1) as [v2 [e|]] eqn:E2; [discriminate|].
    exists v1, v2. auto.
  Qed.

  Ltac norm H := cbn [nth upd fst snd Nat.sub Nat.eqb] in H.

  Lemma deep_advance : forall w0 wa, tracks w0 3 [0; 0; 0] [0; 0; 0] [0; 0; 0] ->
    advance_level I 3 0 1 (0, 1)%nat w0 = (wa, None) ->
    n_data wa = 4%nat /\ n_hier wa = 4%nat /\ d_time wa 0%nat = 0 + 1 /\ d_time wa 1%nat = 0 + 1 / INR 2.
  Proof.
    intros w0 wa T0 E.
    pose proof (tracks_pre _ _ _ _ _ 0 1 (0, 1)%nat T0 eq_refl (or_intror eq_refl)) as T1.
    destruct (tracks_node _ _ _ _ _ _ _ _ _ _ E T1 eq_refl) as (u1 & u2 & A1 & A2 & A3).
    apply (tracks_reset _ _ _ _ _ 1%nat 0%nat) in T1.
    set (x0 := reset_coarse_fine_fluxes I 1 0 _) in *. clearbody x0.
    (* first half of level 1 *)
    pose proof (tracks_pre _ _ _ _ _ 1 (1 / INR 2) (0, 2)%nat T1 eq_refl (or_intror eq_refl)) as T2.
    destruct (tracks_node _ _ _ _ _ _ _ _ _ _ A1 T2 eq_refl) as (v1 & v2 & B1 & B2 & B3).
    apply (tracks_reset _ _ _ _ _ 2%nat 1%nat) in T2.
    set (x1 := reset_coarse_fine_fluxes I 2 1 _) in *. clearbody x1.
    pose proof (tracks_leaf _ _ _ _ _ _ _ _ _ _ T2 B1 eq_refl (le_n _) (le_n _) (or_intror eq_refl)) as T3. norm T3.
    pose proof (tracks_leaf _ _ _ _ _ _ _ _ _ _ T3 B2 eq_refl (le_n _) (le_n _) (or_introl (Nat.neq_succ_0 0))) as T4. norm T4.
    pose proof (tracks_finish _ _ _ _ _ _ _ _ _ T4 B3 eq_refl (le_n _) (le_n _)) as T5. norm T5.
    (* second half of level 1 *)
    pose proof (tracks_pre _ _ _ _ _ 1 (1 / INR 2) (1, 2)%nat T5 eq_refl (or_introl (Nat.neq_succ_0 0))) as T6.
    destruct (tracks_node _ _ _ _ _ _ _ _ _ _ A2 T6 eq_refl) as (z1 & z2 & C1 & C2 & C3).
    apply (tracks_reset _ _ _ _ _ 2%nat 1%nat) in T6.
    set (x2 := reset_coarse_fine_fluxes I 2 1 (pre_advance_level I 1 _ _ u1)) in *. clearbody x2.
    assert (Hne : nth 2 [0; 0; 0] 0 <> nth 2 [0; 0 + 1 / INR 2; 0 + 1 / INR 2 / INR 2 + 1 / INR 2 / INR 2] 0).
    { cbn [nth]. simpl. lra. }
    pose proof (tracks_pre_deep _ _ _ _ _ _ (1 / INR 2 / INR 2) T6 Hne) as T7.
    (* level 2 regrids and gets a finer level *)
    destruct (tracks_node _ _ _ _ _ _ _ _ _ _ C1 T7 eq_refl) as (y1 & y2 & D1 & D2 & D3).
    apply (tracks_reset _ _ _ _ _ 3%nat 2%nat) in T7.
    set (x3 := reset_coarse_fine_fluxes I 3 2 _) in *. clearbody x3.
    pose proof (tracks_leaf _ _ _ _ _ _ _ _ _ _ T7 D1 eq_refl (le_n _) (le_n _) (or_intror eq_refl)) as T8. norm T8.
    pose proof (tracks_leaf _ _ _ _ _ _ _ _ _ _ T8 D2 eq_refl (le_n _) (le_n _) (or_introl (Nat.neq_succ_0 0))) as T9. norm T9.
    pose proof (tracks_finish _ _ _ _ _ _ _ _ _ T9 D3 eq_refl (le_n _) (le_n _)) as T10. norm T10.
    pose proof (tracks_pre _ _ _ _ _ 2 (1 / INR 2 / INR 2) (1, 2)%nat T10 eq_refl (or_introl (Nat.neq_succ_0 0))) as T11.
    destruct (tracks_node _ _ _ _ _ _ _ _ _ _ C2 T11 eq_refl) as (q1 & q2 & F1 & F2 & F3).
    apply (tracks_reset _ _ _ _ _ 3%nat 2%nat) in T11.
    set (x4 := reset_coarse_fine_fluxes I 3 2 (pre_advance_level I 2 _ _ z1)) in *. clearbody x4.
    cbn [advance_level] in F1, F2.
    pose proof (tracks_finish q1 4) as K.
    (* level 3 again; the values of its clock do not matter *)
    assert (Hkeep : forall d sub v v' n ds rs hs, tracks v n ds rs hs -> (3 < n)%nat ->
      finish_level I 3 d sub (pre_advance_level I 3 d sub v) = (v', None) ->
      d_time v' 1%nat = d_time v 1%nat /\ d_time v' 0%nat = d_time v 0%nat /\ n_data v' = n_data v /\ n_hier v' = n_hier v).
    { intros d sub v v' n ds rs hs (N1 & N2 & _) Hn Hf.
      destruct (finish_ctx code 4 2 _ _ _ _ _ Hf) as (G1 & G2 & G3 & _).
      rewrite G1, G2, G3. unfold set_at. cbn [Nat.eqb].
      cbn [pre_advance_level ctx_integrator]. unfold ctx_pre_advance_level, context_pre_advance_level.
      destruct (_ && _)%bool; [|repeat split]. unfold regrid_all_finer_levels. cbn. repeat split. }
    destruct (Hkeep _ _ _ _ _ _ _ _ T11 ltac:(lia) F1) as (L1 & L2 & L3 & L4).
    assert (Tq : tracks q1 4 [d_time q1 0%nat; d_time q1 1%nat; d_time q1 2%nat; d_time q1 3%nat]
       [d_regrid q1 0%nat; d_regrid q1 1%nat; d_regrid q1 2%nat; d_regrid q1 3%nat]
       [h_time q1 0%nat; h_time q1 1%nat; h_time q1 2%nat; h_time q1 3%nat]).
    { destruct T11 as (M1 & M2 & _). split; [congruence|]. split; [congruence|].
      intros [|[|[|[|j]]]] Hj; try lia; cbn; auto. }
    destruct (Hkeep _ _ _ _ _ _ _ _ Tq ltac:(lia) F2) as (P1 & P2 & P3 & P4).
    destruct (finish_ctx code 4 2 _ _ _ _ _ F3) as (G1 & G2 & G3 & _).
    destruct (finish_ctx code 4 2 _ _ _ _ _ C3) as (H1 & H2 & H3 & _).
    destruct (finish_ctx code 4 2 _ _ _ _ _ A3) as (J1 & J2 & J3 & _).
    destruct T11 as (M1 & M2 & M3).
    destruct (M3 1%nat ltac:(lia)) as (N1 & _). destruct (M3 0%nat ltac:(lia)) as (N0 & _). cbn [nth] in N0, N1.
    rewrite J1, J2, J3, H1, H2, H3, G1, G2, G3. unfold set_at. cbn [Nat.eqb].
      rewrite P3, P4, L3, L4, P1, P2, L1, L2, N0, N1. repeat split; auto.
  Qed.

  (** After a coarse step of size 1 level 1 believes that only half of the time has passed. *)
  Lemma deep_run : forall fr, exists w', coarse_step code 4 2 fr 1 (ex_world 3) = (w', None) /\
    n_hier w' = 4%nat /\ ctx_get_time_point w' 0 = Some (0 + 1) /\
    exists t1, ctx_get_time_point w' 1 = Some t1 /\ t1 = 1/2 /\ h_time w' 1%nat = 0 + 1.
  Proof.
    intros fr. destruct (total_step ex_deep 4 2 fr 1 (ex_world 3)) as [w' Hw]. exists w'. split; [exact Hw|].
    unfold coarse_step, advance_hierarchy_subcycle in Hw.
    set (w0 := ctx_pre_advance_hierarchy code (ex_world 3)) in *.
    assert (T0 : tracks w0 3 [0; 0; 0] [0; 0; 0] [0; 0; 0]).
    { split; [reflexivity|]. split; [reflexivity|]. intros [|[|[|j]]] Hj; try lia; cbn; auto. }
    clearbody w0. change (4 - 1)%nat with 3%nat in Hw.
    destruct (advance_level I 3 0 1 (0, 1)%nat w0) as [wa [e|]] eqn:E; [discriminate|].
    pose proof (deep_advance _ _ T0 E) as Hwa.
    clear - Hwa Hw. destruct Hwa as (H1 & H2 & H3 & H4).
    assert (Hb : exists wb, w' = ctx_post_advance_hierarchy code 1 wb /\
      n_data wb = 4%nat /\ n_hier wb = 4%nat /\ d_time wb 0%nat = 0 + 1 /\ d_time wb 1%nat = 0 + 1 / INR 2).
    { destruct (Nat.eqb _ 0).
      - assert (Hw' : ctx_post_advance_hierarchy code 1 (fill_finer I 4 1 (fill_ghost_single I 0 wa)) = w') by congruence.
        eexists. split; [symmetry; exact Hw'|].
        destruct (fill_finer_ctx code 4 2 4 1 (fill_ghost_single I 0 wa)) as (-> & -> & -> & _). auto.
      - exists wa. split; [congruence|auto]. }
    destruct Hb as (wb & -> & B1 & B2 & B3 & B4).
    unfold ctx_post_advance_hierarchy, ctx_get_time_point, with_user. cbn [n_data n_hier d_time h_time].
    rewrite B1, B2. cbn [Nat.ltb Nat.leb]. split; [reflexivity|]. split; [congruence|].
    exists (0 + 1 / INR 2). split; [congruence|]. split; [simpl; lra|exact B3].
  Qed.
End Deep.

(** Two levels; every regrid rebuilds level 1.  Its cycle number starts again from 0. *)
Definition ex_rebuild (which : nat) (w : World unit) : list (nat * bool) := [(S (h_boxes w 1%nat), false)].

Lemma rebuild_pre : forall T dt w, sync 2 T w -> d_regrid w 0%nat <> T ->
  d_cycles (pre_advance_level (ctx_integrator (ex_code ex_rebuild) 2 2) 0 dt (0, 1)%nat w) 1%nat = 0%nat /\
  n_hier (pre_advance_level (ctx_integrator (ex_code ex_rebuild) 2 2) 0 dt (0, 1)%nat w) = 2%nat.
Proof.
  intros T dt w (H1 & H2 & H3 & H4) Hr. cbn [pre_advance_level ctx_integrator].
  unfold ctx_pre_advance_level, context_pre_advance_level. cbn [fst Nat.eqb andb].
  destruct (H3 0%nat ltac:(lia)) as [-> _].
  destruct (Req_EM_T (d_regrid w 0%nat) T) as [|_]; [contradiction|].
  unfold regrid_all_finer_levels. cbn [Nat.ltb Nat.leb Nat.sub first_change].
  assert (Hb : boxes_of (amr_core_regrid (ex_code ex_rebuild) 2 0 w) 1 = Some (S (h_boxes w 1%nat))) by reflexivity.
  rewrite Hb.
  assert (Hf : (match boxes_of w 1 with
    | Some a => if Nat.eqb a (S (h_boxes w 1%nat)) then 2%nat else 1%nat | None => 1%nat end) = 1%nat).
  { unfold boxes_of. destruct (Nat.ltb 1 (n_hier w)); auto.
    destruct (Nat.eqb_spec (h_boxes w 1%nat) (S (h_boxes w 1%nat))); [lia|auto]. }
  rewrite Hf. cbn [Nat.ltb Nat.leb].
  unfold reset_hierarchy_configuration, with_user. cbn [d_cycles h_cycles n_hier]. split; [|reflexivity].
  unfold amr_core_regrid. cbn [h_cycles Nat.sub new_grids ex_code ex_rebuild firstn nth_error Nat.ltb Nat.leb andb orb].
  unfold boxes_of. destruct (Nat.ltb 1 (n_hier w)); [|reflexivity].
  destruct (Nat.eqb_spec (S (h_boxes w 1%nat)) (h_boxes w 1%nat)); [lia|reflexivity].
Qed.

Lemma rebuild_run : exists w, history (coarse_step (ex_code ex_rebuild) 2 2 1) (fun u => u) (ex_world 2) 2 (0 + 1 + 1) w /\
  n_hier w = 2%nat /\ h_cycles w 1%nat = 2%nat.
Proof.
  assert (Hq : forall which, (2 <= which)%nat -> (S which < 2)%nat -> keeps_grids (ex_code ex_rebuild) which) by (intros; lia).
  destruct (total_step ex_rebuild 2 2 1 1 (ex_world 2)) as [w1 H1].
  destruct (total_step ex_rebuild 2 2 1 1 w1) as [w2 H2].
  assert (F : fresh 2 0 (ex_world 2)) by (apply ex_world_fresh; lia).
  pose proof (startable_pre (ex_code ex_rebuild) 2 0 _ (or_intror F)) as S0.
  assert (S1 : sync 2 (0 + 1) w1) by (apply (coarse_step_ctx (ex_code ex_rebuild) 2 2 ltac:(lia) Hq 1 0 1 (ex_world 2)); auto; lra).
  assert (R1 : d_regrid w1 0%nat = 0).
  { unfold coarse_step in H1. destruct (advance_hierarchy_subcycle _ _ _ _ _) as [v [e|]] eqn:E; [discriminate|].
    destruct (advance_hier_ctx _ 2 2 ltac:(lia) Hq _ _ _ _ _ S0 E) as (_ & _ & _ & _ & Hr).
    assert (Hw : ctx_post_advance_hierarchy (ex_code ex_rebuild) 1 v = w1) by congruence. rewrite <- Hw. exact Hr. }
  exists w2. split.
  { eapply h_step; [eapply h_step; [apply h_start|lra|exact H1]|lra|exact H2]. }
  assert (Hp : ctx_pre_advance_hierarchy (ex_code ex_rebuild) w1 = w1).
  { unfold ctx_pre_advance_hierarchy. destruct S1 as (_ & -> & _). rewrite Nat.eqb_refl. reflexivity. }
  unfold coarse_step in H2. rewrite Hp in H2.
  destruct (advance_hierarchy_subcycle _ _ _ _ w1) as [v [e|]] eqn:E; [discriminate|].
  destruct (advance_hier_ctx _ 2 2 ltac:(lia) Hq _ _ _ _ _ S1 E) as (v1 & Hv1 & _ & Ha & _).
  destruct (rebuild_pre (0 + 1) 1 w1 S1 ltac:(lra)) as [P1 P2]. rewrite <- Hv1 in P1, P2.
  destruct Ha as (A1 & A2 & A3 & A4 & _).
  assert (Hw : ctx_post_advance_hierarchy (ex_code ex_rebuild) 1 v = w2) by congruence. rewrite <- Hw.
  unfold ctx_post_advance_hierarchy, with_user. cbn [n_hier h_cycles]. rewrite A2, P2.
  split; [reflexivity|]. cbn [Nat.ltb Nat.leb]. destruct (A4 1%nat ltac:(lia)) as [_ ->]. rewrite P1. reflexivity.
Qed.
