(** Lemmas for C87: in a pack with a mask the active lanes are those of a pack without the others. *)
From Coq Require Import List ZArith Reals Lia Lra Bool.
From Verif Require Import EnergyModel EnergyProofs3.
Import ListNotations.
Local Open Scope R_scope.

Section Active.
Context {A B : Type}.
(** the entries of the active lanes *)
Fixpoint pick (mask : list bool) (l : list A) : list A :=
  match mask, l with true :: mask', x :: l' => x :: pick mask' l' | false :: mask', _ :: l' => pick mask' l' | _, _ => [] end.
End Active.

Lemma pick_map {A B} (f : A -> B) mask l : pick mask (map f l) = map f (pick mask l).
Proof. revert l. induction mask as [|[] mask IH]; intros [|x l]; try reflexivity; cbn; rewrite IH; reflexivity. Qed.

(** every lane that is not active has energy, target and step zero *)
Definition idle (l : lane) : Prop :=
  l_target l = 0 /\ Unew (l_state l) = 0 /\ Utop (l_state l) = 0 /\ Ubot (l_state l) = 0.
Definition idles (lanes : list (bool * lane)) : Prop := forall p, In p lanes -> fst p = false -> idle (snd p).

Definition actives (lanes : list (bool * lane)) : list lane := pick (map fst lanes) (map snd lanes).

Lemma actives_cons b l lanes : actives ((b, l) :: lanes) = if b then l :: actives lanes else actives lanes.
Proof. destruct b; reflexivity. Qed.

Lemma active_step l : masked_step (true, l) = lane_step l.
Proof. reflexivity. Qed.

(** the inner loop on the active lanes *)
Definition act (lanes : list (bool * lane * R)) : list (lane * R) :=
  flat_map (fun p => let '(b, l, dT) := p in if b : bool then [(l, dT)] else []) lanes.

Lemma act_map_smaller (lanes : list (bool * lane * R)) :
  act (map (fun p => (fst p, if (if Rlt_dec (masked_cv p) 0 then true else false) then 1 / 4 * snd p else snd p)) lanes) =
  map (fun p : lane * R => (fst p, if (if Rlt_dec (l_cv (fst p) (Tnew (l_state (fst p)) + snd p)) 0 then true else false) then 1 / 4 * snd p else snd p)) (act lanes).
Proof.
  induction lanes as [|[[[] l] dT] lanes IH]; [reflexivity| |]; cbn [map]; unfold act in *; cbn [flat_map fst snd app map masked_cv masked_T] in *; rewrite IH; reflexivity.
Qed.

Lemma act_existsb (lanes : list (bool * lane * R)) :
  existsb (fun p : bool * lane * R => if Rlt_dec (masked_cv p) 0 then true else false) lanes =
  existsb (fun p : lane * R => if Rlt_dec (l_cv (fst p) (Tnew (l_state (fst p)) + snd p)) 0 then true else false) (act lanes).
Proof.
  induction lanes as [|[[[] l] dT] lanes IH]; [reflexivity| |]; unfold act in *; cbn [existsb flat_map app masked_cv masked_T fst snd] in *; rewrite IH.
  - reflexivity.
  - destruct (Rlt_dec 0 0); [lra|reflexivity].
Qed.

Lemma fst_smaller (lanes : list (bool * lane * R)) (f : bool * lane * R -> R) :
  map (fun p : bool * lane * R => fst (fst p)) (map (fun p => (fst p, f p)) lanes) = map (fun p : bool * lane * R => fst (fst p)) lanes.
Proof. rewrite map_map. reflexivity. Qed.

Lemma stable_pick : forall its lanes,
  pick (map (fun p : bool * lane * R => fst (fst p)) lanes) (stay_stable_masked its lanes) = stay_stable_pack its (act lanes).
Proof.
  assert (forall (g : bool * lane * R -> R) (h : lane * R -> R) lanes, (forall l dT, g (true, l, dT) = h (l, dT)) ->
    pick (map (fun p : bool * lane * R => fst (fst p)) lanes) (map (fun p => (g p, masked_T p)) lanes) =
    map (fun p : lane * R => (h p, Tnew (l_state (fst p)) + snd p)) (act lanes)) as base.
  { intros g h lanes E. induction lanes as [|[[[] l] dT] lanes IH]; [reflexivity| |]; unfold act in *; cbn [map pick flat_map app fst snd masked_T] in *; rewrite IH.
    - rewrite E. reflexivity.
    - reflexivity. }
  induction its as [|its IH]; intros lanes; cbn [stay_stable_masked stay_stable_pack].
  - exact (base (fun p => snd p) (fun p => snd p) lanes ltac:(reflexivity)).
  - rewrite act_existsb. destruct (existsb _ _).
    + destruct its as [|its].
      * apply (base (fun p => if (if Rlt_dec (masked_cv p) 0 then true else false) then 1 / 4 * snd p else snd p)
          (fun p => if (if Rlt_dec (l_cv (fst p) (Tnew (l_state (fst p)) + snd p)) 0 then true else false) then 1 / 4 * snd p else snd p) lanes).
        reflexivity.
      * rewrite <- act_map_smaller, <- IH, fst_smaller. reflexivity.
    + exact (base (fun p => snd p) (fun p => snd p) lanes ltac:(reflexivity)).
Qed.

Lemma stable_length : forall its lanes, length (stay_stable_masked its lanes) = length lanes.
Proof.
  induction its as [|its IH]; intros lanes; cbn [stay_stable_masked]; [apply map_length|].
  destruct (existsb _ _); [|apply map_length]. destruct its; [apply map_length|]. rewrite IH. apply map_length.
Qed.

(** what the inner loop leaves for a lane that is not active *)
Lemma stable_idle : forall its lanes i l dT, nth_error lanes i = Some (false, l, dT) ->
  nth_error (stay_stable_masked its lanes) i = Some (dT, 300).
Proof.
  induction its as [|its IH]; intros lanes i l dT H; cbn [stay_stable_masked].
  - rewrite nth_error_map, H. reflexivity.
  - destruct (existsb _ _).
    + destruct its as [|its].
      * rewrite nth_error_map, H. cbn [option_map snd masked_cv masked_T]. destruct (Rlt_dec 0 0); [lra|reflexivity].
      * rewrite (IH _ i l dT); [reflexivity|]. rewrite nth_error_map, H. cbn [option_map fst snd masked_cv]. destruct (Rlt_dec 0 0); [lra|reflexivity].
    + rewrite nth_error_map, H. reflexivity.
Qed.

Lemma idle_step l : idle l -> masked_step (false, l) = 0.
Proof.
  intros (H1 & H2 & H3 & H4). unfold masked_step, newton_step, limited_step. rewrite H1, H2, H3, H4.
  replace ((0 - 0) / 1) with 0 by field. rewrite Rmin_right by lra. rewrite Rmax_right by lra.
  destruct (Rlt_dec 1 0); [lra|]. destruct (Rlt_dec 0 0); [lra|]. destruct (Rle_dec 0 0); [|lra]. reflexivity.
Qed.

Lemma act_steps lanes : act (map (fun p => (p, masked_step p)) lanes) = map (fun l => (l, lane_step l)) (actives lanes).
Proof.
  induction lanes as [|[[] l] lanes IH]; [reflexivity| |]; rewrite actives_cons; unfold act in *; cbn [map flat_map app]; rewrite IH; reflexivity.
Qed.

(** the steps of a pass, for a pack of masked lanes *)
Definition steps_of (lanes : list (bool * lane)) : list (R * R) := stay_stable_masked 10 (map (fun p => (p, masked_step p)) lanes).

Lemma steps_pick lanes : pick (map fst lanes) (steps_of lanes) = stay_stable_pack 10 (map (fun l => (l, lane_step l)) (actives lanes)).
Proof.
  unfold steps_of. rewrite <- act_steps, <- stable_pick. f_equal. rewrite map_map. reflexivity.
Qed.

Lemma steps_idle lanes i l : idles lanes -> nth_error lanes i = Some (false, l) -> nth_error (steps_of lanes) i = Some (0, 300).
Proof.
  intros HI H. unfold steps_of. rewrite (stable_idle 10 _ i l 0); [reflexivity|]. rewrite nth_error_map, H. cbn [option_map].
  rewrite idle_step; [reflexivity|]. apply (HI (false, l)); [eapply nth_error_In; exact H|reflexivity].
Qed.

(** a check over all lanes is one over the active lanes if it holds for the others *)
Lemma forallb_pick (f : bool * lane * (R * R) -> bool) (g : lane * (R * R) -> bool) lanes (st : list (R * R)) :
  (forall l x, f (true, l, x) = g (l, x)) -> length st = length lanes ->
  (forall i l x, nth_error lanes i = Some (false, l) -> nth_error st i = Some x -> f (false, l, x) = true) ->
  forallb f (combine lanes st) = forallb g (combine (actives lanes) (pick (map fst lanes) st)).
Proof.
  intros H1. revert st. induction lanes as [|[b l] lanes IH]; intros [|x st] HL H2; try discriminate; [reflexivity|].
  rewrite actives_cons. cbn [combine forallb map fst]. injection HL as HL. specialize (IH st HL (fun i => H2 (S i))).
  destruct b; cbn [combine forallb pick].
  - rewrite H1, IH. reflexivity.
  - rewrite (H2 O l x eq_refl eq_refl), IH. reflexivity.
Qed.

Lemma actives_bounds lanes (st : list (R * R)) : length st = length lanes ->
  actives (map (fun p => masked_bounds (fst p) (snd (snd p))) (combine lanes st)) =
  map (fun p : lane * (R * R) => new_bounds (fst p) (snd (snd p))) (combine (actives lanes) (pick (map fst lanes) st)).
Proof.
  revert st. induction lanes as [|[b l] lanes IH]; intros [|x st] HL; try discriminate; [reflexivity|].
  cbn [combine map fst snd]. injection HL as HL. rewrite actives_cons. unfold masked_bounds at 1. rewrite actives_cons, IH by exact HL.
  destruct b; reflexivity.
Qed.

Lemma fst_bounds lanes (st : list (R * R)) : length st = length lanes ->
  map fst (map (fun p => masked_bounds (fst p) (snd (snd p))) (combine lanes st)) = map fst lanes.
Proof.
  revert st. induction lanes as [|[b l] lanes IH]; intros [|x st] HL; try discriminate; [reflexivity|].
  cbn [combine map fst snd]. injection HL as HL. rewrite IH by exact HL. reflexivity.
Qed.

Lemma idle_bounds l T : idle l -> idle (snd (masked_bounds (false, l) T)).
Proof.
  intros (H1 & H2 & H3 & H4). unfold masked_bounds, idle, masked_U. cbn [fst snd l_target l_state Unew Utop Ubot]. rewrite H1, H3, H4.
  destruct (Rlt_dec 0 0); [lra|]. repeat split.
Qed.

Lemma idles_bounds lanes (st : list (R * R)) : idles lanes -> idles (map (fun p => masked_bounds (fst p) (snd (snd p))) (combine lanes st)).
Proof.
  intros HI p I E. apply in_map_iff in I as ([[b l] x] & <- & I). cbn [fst snd] in *. apply in_combine_l in I.
  destruct b; [discriminate|]. apply idle_bounds. exact (HI (false, l) I eq_refl).
Qed.

Lemma masked_run : forall n tol lanes, idles lanes ->
  match iterate_masked n tol lanes with
  | Some Ts => iterate_pack n tol (actives lanes) = Some (pick (map fst lanes) Ts) /\ length Ts = length lanes /\
               forall i l, nth_error lanes i = Some (false, l) -> nth_error Ts i = Some 300
  | None => iterate_pack n tol (actives lanes) = None
  end.
Proof.
  induction n as [|n IH]; intros tol lanes HI; [reflexivity|]. cbn [iterate_masked iterate_pack]. unfold pass_masked, pass_pack.
  rewrite <- steps_pick. fold (steps_of lanes). pose proof (stable_length 10 (map (fun p => (p, masked_step p)) lanes)) as HL. fold (steps_of lanes) in HL.
  rewrite map_length in HL.
  rewrite (forallb_pick (fun p => if Req_EM_T (masked_U (fst p) (snd (snd p))) (l_target (snd (fst p))) then true else false)
             (fun p => if Req_EM_T (l_u (fst p) (snd (snd p))) (l_target (fst p)) then true else false));
    [|reflexivity|exact HL|].
  2: { intros i l x H _. cbn [fst snd masked_U]. destruct (HI (false, l) (nth_error_In _ _ H) eq_refl) as (E & _). cbn [snd] in E. rewrite E.
       unfold masked_U. cbn [fst]. destruct (Req_EM_T 0 0); [reflexivity|contradiction]. }
  rewrite (forallb_pick (fun p => masked_done tol (fst p) (fst (snd p)) (snd (snd p)))
             (fun p => lane_done tol (fst p) (fst (snd p)) (snd (snd p)))); [|reflexivity|exact HL|reflexivity].
  assert (forall i l, nth_error lanes i = Some (false, l) -> nth_error (map snd (steps_of lanes)) i = Some 300) as HT.
  { intros i l H. rewrite nth_error_map, (steps_idle lanes i l HI H). reflexivity. }
  assert (length (map snd (steps_of lanes)) = length lanes) as HTL by (rewrite map_length; exact HL).
  destruct (forallb _ _); [split; [rewrite pick_map; reflexivity|split; [exact HTL|exact HT]]|].
  destruct (forallb _ _); [split; [rewrite pick_map; reflexivity|split; [exact HTL|exact HT]]|].
  specialize (IH tol _ (idles_bounds lanes (steps_of lanes) HI)). rewrite (actives_bounds _ _ HL), (fst_bounds _ _ HL) in IH.
  destruct (iterate_masked n tol _) as [Ts|]; [|exact IH]. destruct IH as (H1 & H2 & H3). split; [exact H1|]. split.
  - rewrite H2, map_length, combine_length, HL. apply Nat.min_id.
  - intros i l H. assert (exists x, nth_error (steps_of lanes) i = Some x) as [x Hx].
    { destruct (nth_error (steps_of lanes) i) as [x|] eqn:E; [exists x; reflexivity|]. apply nth_error_None in E.
      assert (i < length lanes)%nat by (apply nth_error_Some; congruence). lia. }
    eapply (H3 i). rewrite nth_error_map.
    assert (nth_error (combine lanes (steps_of lanes)) i = Some ((false, l), x)) as ->.
    { clear - H Hx. revert H Hx. generalize (steps_of lanes). revert i. induction lanes as [|p lanes IH]; intros [|i] [|y st] H Hx; try discriminate; cbn in *.
      - congruence. - apply IH; assumption. }
    cbn [option_map fst snd masked_bounds]. reflexivity.
Qed.

Lemma pick_filter {A} (mask : list bool) (l : list A) : pick mask l = map snd (filter fst (combine mask l)).
Proof. revert l. induction mask as [|[] mask IH]; intros [|x l]; try reflexivity; cbn; rewrite IH; reflexivity. Qed.

Definition lane_of (m : (R -> R) * (R -> R) * R * R) : lane := let '(u, cv, T0, target) := m in mkLane u cv target (newton_start u cv T0).
Definition masked_start (p : bool * ((R -> R) * (R -> R) * R * R)) : bool * lane :=
  let '(active, (u, cv, T0, target)) := p in (active, masked_lane active (mkLane u cv target (newton_start u cv T0))).

Lemma actives_start mixtures : actives (map masked_start mixtures) = map lane_of (map snd (filter fst mixtures)).
Proof.
  induction mixtures as [|[[] [[[u cv] T0] target]] ms IH]; [reflexivity| |]; cbn [map masked_start]; rewrite actives_cons; cbn [filter fst map snd masked_lane]; rewrite IH; reflexivity.
Qed.

Lemma fst_start mixtures : map fst (map masked_start mixtures) = map fst mixtures.
Proof. rewrite map_map. apply map_ext. intros [b [[[u cv] T0] target]]. reflexivity. Qed.

Lemma idles_start mixtures : idles (map masked_start mixtures).
Proof.
  intros p I E. apply in_map_iff in I as ([b [[[u cv] T0] target]] & <- & _). cbn [masked_start fst snd] in *. subst b. repeat split.
Qed.
