(** Lemmas for C85 and C86. *)
From Coq Require Import List ZArith Reals Lia Lra Bool Arith.
From Verif Require Import IgniteModel IgniteSpec.
Import ListNotations.
Local Open Scope R_scope.

Lemma dbl_min_pos : 0 < dbl_min.
Proof. unfold dbl_min. apply powerRZ_lt. lra. Qed.

Lemma set_length ts l t : length (SetLastIgnitionTimePoint ts l t) = length ts.
Proof. revert l. induction ts as [|x ts IH]; intros l; [reflexivity|]. destruct l; cbn; [reflexivity|]. f_equal. apply IH. Qed.

Lemma set_nth ts l t j : nth j (SetLastIgnitionTimePoint ts l t) 0 = if (Nat.eqb j l && Nat.ltb l (length ts))%bool then t else nth j ts 0.
Proof.
  revert l j. induction ts as [|x ts IH]; intros l j.
  - cbn [SetLastIgnitionTimePoint length]. change (Nat.ltb l 0) with false. rewrite andb_false_r. destruct l; reflexivity.
  - destruct l, j; cbn [SetLastIgnitionTimePoint nth]; try reflexivity.
    rewrite IH. cbn [length]. change (Nat.eqb (S j) (S l)) with (Nat.eqb j l).
    change (Nat.ltb (S l) (S (length ts))) with (Nat.ltb l (length ts)). reflexivity.
Qed.

Lemma advance_length o ts l t r : length (snd (advance o ts l t r)) = length ts.
Proof. unfold advance. destruct (Rlt_dec _ _); [|reflexivity]. destruct (Rlt_dec _ _); [|reflexivity]. apply set_length. Qed.

Lemma run_length o calls ts : length (snd (run_calls o ts calls)) = length ts.
Proof.
  revert ts. induction calls as [|[[l t] r] calls IH]; intros ts; [reflexivity|]. cbn [run_calls].
  destruct (advance o ts l t r) as [f ts1] eqn:E1. destruct (run_calls o ts1 calls) as [fs ts2] eqn:E2. cbn [snd].
  specialize (IH ts1). rewrite E2 in IH. cbn [snd] in IH. rewrite IH. pose proof (advance_length o ts l t r) as H. rewrite E1 in H. exact H.
Qed.

Lemma run_app o ts c1 c2 :
  run_calls o ts (c1 ++ c2) =
  (fst (run_calls o ts c1) ++ fst (run_calls o (snd (run_calls o ts c1)) c2), snd (run_calls o (snd (run_calls o ts c1)) c2)).
Proof.
  revert ts. induction c1 as [|[[l t] r] c1 IH]; intros ts.
  - cbn. destruct (run_calls o ts c2). reflexivity.
  - cbn [app run_calls]. destruct (advance o ts l t r) as [f ts1]. rewrite IH. destruct (run_calls o ts1 c1) as [fs ts2]. reflexivity.
Qed.

Lemma advance_next o ts l t r :
  fst (advance o ts l t r) = true <-> GetNextIgnitionTimePoint o ts l < t /\ equivalence_ratio_criterium o < r.
Proof.
  unfold advance. destruct (Rlt_dec _ t) as [A|A]; [destruct (Rlt_dec _ r) as [B|B]|]; cbn [fst]; split; intros H; try discriminate; try tauto; try lra.
Qed.

(** the next time point after an event *)
Lemma next_after o ts l t r j : (j < length ts)%nat -> 0 <= ignite_interval o -> (l = j -> offset o <= GetNextIgnitionTimePoint o ts j) ->
  GetNextIgnitionTimePoint o (snd (advance o ts l t r)) j =
  GetNextIgnitionTimePoint o ts j + (if (Nat.eqb l j && fst (advance o ts l t r))%bool then ignite_interval o else 0).
Proof.
  intros Hj Hi Ho. unfold advance. destruct (Rlt_dec (GetNextIgnitionTimePoint o ts l) t) as [A|A].
  2:{ cbn [fst snd]. rewrite andb_false_r. ring. }
  destruct (Rlt_dec (equivalence_ratio_criterium o) r) as [B|B].
  2:{ cbn [fst snd]. rewrite andb_false_r. ring. }
  cbn [fst snd]. rewrite andb_true_r. destruct (Nat.eqb_spec l j) as [-> | N].
  - unfold GetNextIgnitionTimePoint at 1. rewrite set_nth, Nat.eqb_refl. destruct (Nat.ltb_spec j (length ts)) as [_|L]; [|lia].
    cbn [andb]. specialize (Ho eq_refl). destruct (Rlt_dec _ _); [lra|reflexivity].
  - unfold GetNextIgnitionTimePoint. rewrite set_nth. destruct (Nat.eqb_spec j l) as [E|_]; [congruence|]. cbn [andb]. ring.
Qed.

Lemma next_ge_offset o ts j : 0 <= ignite_interval o -> offset o <= GetNextIgnitionTimePoint o ts j.
Proof. intros H. unfold GetNextIgnitionTimePoint. destruct (Rlt_dec _ _); lra. Qed.

Lemma next_history o calls : forall ts j, (j < length ts)%nat -> 0 <= ignite_interval o ->
  GetNextIgnitionTimePoint o (snd (run_calls o ts calls)) j =
  GetNextIgnitionTimePoint o ts j + INR (ignitions j calls (fst (run_calls o ts calls))) * ignite_interval o.
Proof.
  induction calls as [|[[l t] r] calls IH]; intros ts j Hj Hi; [cbn; ring|].
  cbn [run_calls]. pose proof (next_after o ts l t r j Hj Hi (fun _ => next_ge_offset o ts j Hi)) as N.
  pose proof (advance_length o ts l t r) as L. destruct (advance o ts l t r) as [f ts1]. cbn [fst snd] in N, L.
  specialize (IH ts1 j ltac:(lia) Hi). destruct (run_calls o ts1 calls) as [fs ts2]. cbn [fst snd] in IH |- *. cbn [ignitions].
  rewrite IH, N. rewrite plus_INR. destruct (Nat.eqb l j && f)%bool; cbn [INR]; ring.
Qed.

Lemma nth_initial n j : (j < n)%nat -> nth j (initial_times n) 0 = dbl_min.
Proof. intros H. unfold initial_times. rewrite (nth_indep _ 0 dbl_min) by (rewrite repeat_length; exact H). apply nth_repeat. Qed.

(** The measurement *)
Definition covers (x : R) (c : mcell) : Prop := lo c <= x < hi c.

Lemma local_none x cells old : (forall c, In c cells -> ~ covers x c) -> forall b, fold_left (fun acc c => if Rle_dec (lo c) x then if Rlt_dec x (hi c) then (true, (mh2 c, mo2 c)) else acc else acc) cells (b, old) = (b, old).
Proof.
  intros H b. induction cells as [|c cells IH]; [reflexivity|]. cbn [fold_left].
  assert (~ covers x c) as N by (apply H; left; reflexivity). unfold covers in N.
  destruct (Rle_dec (lo c) x); [destruct (Rlt_dec x (hi c)); [exfalso; tauto|]|]; apply IH; intros c' I; apply H; right; exact I.
Qed.

Lemma local_same x cells h2 o2 : (forall c, In c cells -> covers x c -> mh2 c = h2 /\ mo2 c = o2) ->
  forall b old, (b = true -> old = (h2, o2)) ->
  let r := fold_left (fun acc c => if Rle_dec (lo c) x then if Rlt_dec x (hi c) then (true, (mh2 c, mo2 c)) else acc else acc) cells (b, old) in
  (fst r = true -> snd r = (h2, o2)) /\ (fst r = false -> snd r = old) /\
  (fst r = true <-> b = true \/ exists c, In c cells /\ covers x c).
Proof.
  induction cells as [|c cells IH]; intros H b old Hb r.
  - unfold r. cbn. split; [exact Hb|]. split; [reflexivity|]. split; [tauto|]. intros [E|(c & [] & _)]; exact E.
  - unfold r. cbn [fold_left].
    destruct (Rle_dec (lo c) x) as [A|A]; [destruct (Rlt_dec x (hi c)) as [B|B]|].
    + destruct (H c (or_introl eq_refl) (conj A B)) as [E1 E2]. rewrite E1, E2.
      destruct (IH (fun c' I => H c' (or_intror I)) true (h2, o2) (fun _ => eq_refl)) as (P & Q & SS).
      split; [exact P|]. split.
      * intros F. assert (true = true) as T by reflexivity. exfalso. rewrite (proj2 SS (or_introl T)) in F. discriminate.
      * split; [intros _; right; exists c; split; [left; reflexivity|split; assumption]|intros _; apply SS; left; reflexivity].
    + destruct (IH (fun c' I => H c' (or_intror I)) b old Hb) as (P & Q & SS). split; [exact P|]. split; [exact Q|].
      rewrite SS. split; (intros [E|(c' & I & C)]; [left; exact E|right]).
      * exists c'. split; [right; exact I|exact C].
      * destruct I as [<- |I]; [unfold covers in C; lra|exists c'; split; assumption].
    + destruct (IH (fun c' I => H c' (or_intror I)) b old Hb) as (P & Q & SS). split; [exact P|]. split; [exact Q|].
      rewrite SS. split; (intros [E|(c' & I & C)]; [left; exact E|right]).
      * exists c'. split; [right; exact I|exact C].
      * destruct I as [<- |I]; [unfold covers in C; lra|exists c'; split; assumption].
Qed.

Lemma sum_moles_cons m ms : sum_moles (m :: ms) = (fst m + fst (sum_moles ms), snd m + snd (sum_moles ms)).
Proof. reflexivity. Qed.

(** all processes together, when nothing was found before *)
Lemma level_same x h2 o2 (l : list (list mcell)) n : length l = n ->
  (forall p c, In p l -> In c p -> covers x c -> mh2 c = h2 /\ mo2 c = o2) ->
  let res := map (fun pc => local_moles x (fst pc) (snd pc)) (combine l (repeat (0, 0) n)) in
  (existsb fst res = false -> map snd res = repeat (0, 0) n) /\
  (existsb fst res = true <-> exists p c, In p l /\ In c p /\ covers x c) /\
  exists k : nat, sum_moles (map snd res) = (INR k * h2, INR k * o2) /\ (existsb fst res = true -> (0 < k)%nat).
Proof.
  revert n. induction l as [|p l IH]; intros n Hn H res.
  - subst n. cbn in res. unfold res. cbn. split; [reflexivity|]. split; [split; [discriminate|intros (p & c & [] & _)]|].
    exists 0%nat. cbn. split; [f_equal; ring|discriminate].
  - destruct n as [|n]; [discriminate|]. injection Hn as Hn. cbn [repeat combine map] in res.
    destruct (IH n Hn (fun p' c I => H p' c (or_intror I))) as (A & B & k & C & D).
    set (res' := map _ (combine l (repeat (0, 0) n))) in *. unfold res. cbn [fst snd map existsb]. rewrite sum_moles_cons.
    destruct (local_same x p h2 o2 (fun c I => H p c (or_introl eq_refl) I) false (0, 0)) as (P & Q & SS); [discriminate|].
    fold (local_moles x p (0, 0)) in P, Q, SS. cbn zeta in P, Q, SS. fold (local_moles x p (0, 0)) in P, Q, SS.
    destruct (local_moles x p (0, 0)) as [f m]. cbn [fst snd] in P, Q, SS |- *.
    split; [|split].
    + intros E. apply orb_false_iff in E as [E1 E2]. rewrite (Q E1), (A E2). reflexivity.
    + rewrite orb_true_iff, B, SS. split.
      * intros [[F|(c & I & V)]|(p' & c & I & I2 & V)]; [discriminate|exists p, c; split; [left; reflexivity|split; assumption]|exists p', c; split; [right; exact I|split; assumption]].
      * intros (p' & c & [<- |I] & I2 & V); [left; right; exists c; split; assumption|right; exists p', c; split; [exact I|split; assumption]].
    + destruct f.
      * exists (S k). rewrite (P eq_refl). rewrite S_INR. rewrite C. cbn [fst snd]. split; [f_equal; ring|intros _; lia].
      * exists k. rewrite (Q eq_refl). rewrite C. cbn [fst snd]. split; [f_equal; ring|exact D].
Qed.

Lemma gather_finest x h2 o2 n l coarser : forall finer,
  length l = n -> (forall f, In f finer -> length f = n) ->
  (forall f p c, In f finer -> In p f -> In c p -> ~ covers x c) ->
  (forall p c, In p l -> In c p -> covers x c -> mh2 c = h2 /\ mo2 c = o2) ->
  (exists p c, In p l /\ In c p /\ covers x c) ->
  exists k : nat, (0 < k)%nat /\ gather x (finer ++ l :: coarser) (repeat (0, 0) n) = (INR k * h2, INR k * o2).
Proof.
  induction finer as [|f finer IH]; intros Hl Hf Hn Hs He.
  - cbn [app gather]. destruct (level_same x h2 o2 l n Hl Hs) as (_ & B & k & C & D). rewrite (proj2 B He). exists k. split; [apply D, B, He|exact C].
  - cbn [app gather].
    assert (forall p c, In p f -> In c p -> covers x c -> mh2 c = h2 /\ mo2 c = o2) as V.
    { intros p c I1 I2 C. exfalso. exact (Hn f p c (or_introl eq_refl) I1 I2 C). }
    destruct (level_same x h2 o2 f n (Hf f (or_introl eq_refl)) V) as (A & B & _).
    destruct (existsb fst _) eqn:E.
    + exfalso. destruct (proj1 B eq_refl) as (p & c & I1 & I2 & C). exact (Hn f p c (or_introl eq_refl) I1 I2 C).
    + rewrite (A eq_refl). apply IH; auto.
      * intros f' I. apply Hf. right. exact I.
      * intros f' p c I. apply Hn. right. exact I.
Qed.

Lemma gather_none x n : forall levels, (forall f, In f levels -> length f = n) ->
  (forall f p c, In f levels -> In p f -> In c p -> ~ covers x c) -> gather x levels (repeat (0, 0) n) = (0, 0).
Proof.
  induction levels as [|f levels IH]; intros Hf Hn; [reflexivity|]. cbn [gather].
  assert (forall p c, In p f -> In c p -> covers x c -> mh2 c = 0 /\ mo2 c = 0) as V.
  { intros p c I1 I2 C. exfalso. exact (Hn f p c (or_introl eq_refl) I1 I2 C). }
  destruct (level_same x 0 0 f n (Hf f (or_introl eq_refl)) V) as (A & B & _).
  destruct (existsb fst _) eqn:E.
  - exfalso. destruct (proj1 B eq_refl) as (p & c & I1 & I2 & C). exact (Hn f p c (or_introl eq_refl) I1 I2 C).
  - rewrite (A eq_refl). apply IH; [intros f' I; apply Hf; right; exact I|intros f' p c I; apply Hn; right; exact I].
Qed.

Lemma ratio_scale k h2 o2 : (0 < k)%nat -> equivalence_ratio (INR k * h2) (INR k * o2) = equivalence_ratio h2 o2.
Proof.
  intros H. apply lt_0_INR in H. unfold equivalence_ratio. destruct (Req_EM_T o2 0) as [-> | N].
  - destruct (Req_EM_T (INR k * 0) 0); [reflexivity|lra].
  - destruct (Req_EM_T (INR k * o2) 0) as [E|E]; [apply Rmult_integral in E; lra|field; lra].
Qed.

(** The ignition *)
Lemma ramp_left low high x0 width x : 0 < width -> x <= x0 ->
  (x0 - x) / width * low + (1 - (x0 - x) / width) * high = ramp low high x0 width x.
Proof. intros H1 H2. unfold ramp. rewrite Rabs_left1 by lra. field. lra. Qed.

Lemma ramp_right low high x0 width x : 0 < width -> x0 <= x ->
  (x - x0) / width * low + (1 - (x - x0) / width) * high = ramp low high x0 width x.
Proof. intros H1 H2. unfold ramp. rewrite Rabs_right by lra. field. lra. Qed.

Lemma ramp_bounds low high x0 width x : 0 < width -> low <= high -> Rabs (x - x0) <= width -> low <= ramp low high x0 width x <= high.
Proof.
  intros H1 H2 H3. unfold ramp. pose proof (Rabs_pos (x - x0)).
  assert (0 <= Rabs (x - x0) / width <= 1).
  { split; [apply Rmult_le_pos; [lra|left; apply Rinv_0_lt_compat; lra]|]. apply Rmult_le_reg_r with width; [lra|].
    unfold Rdiv. rewrite Rmult_assoc, Rinv_l by lra. lra. }
  split; nra.
Qed.

Lemma run_flags o calls : forall ts, length (fst (run_calls o ts calls)) = length calls.
Proof.
  induction calls as [|[[l t] r] calls IH]; intros ts; [reflexivity|]. cbn [run_calls].
  destruct (advance o ts l t r) as [f ts1]. specialize (IH ts1). destruct (run_calls o ts1 calls) as [fs ts2]. cbn [fst] in IH |- *. cbn. f_equal. exact IH.
Qed.

Lemma ignitions_app level h : forall f b l t r, length f = length h ->
  ignitions level (h ++ [(l, t, r)]) (f ++ [b]) = (ignitions level h f + (if (Nat.eqb l level && b)%bool then 1 else 0))%nat.
Proof.
  induction h as [|[[l1 t1] r1] h IH]; intros f b l t r L; destruct f as [|f1 f]; try discriminate; cbn [app ignitions]; [lia|].
  rewrite IH by (injection L; auto). lia.
Qed.

Lemma not_too_often o levels level tmax history : 0 <= ignite_interval o -> (level < levels)%nat ->
  (forall l t r, In (l, t, r) history -> t <= tmax) ->
  let n := ignitions level history (fst (run_calls o (initial_times levels) history)) in
  (0 < n)%nat -> GetNextIgnitionTimePoint o (initial_times levels) level + INR (n - 1) * ignite_interval o < tmax.
Proof.
  intros Hi Hl. induction history as [|[[l t] r] history IH] using rev_ind; intros Ht n Hn; [cbn in Hn; lia|].
  assert (forall l t r, In (l, t, r) history -> t <= tmax) as Ht' by (intros l' t' r' I; apply (Ht l' t' r'); apply in_or_app; left; exact I).
  specialize (IH Ht'). cbn zeta in IH. unfold n in *. rewrite run_app in Hn |- *. cbn [fst] in Hn |- *.
  set (s := run_calls o (initial_times levels) history) in *.
  assert (fst (run_calls o (snd s) [(l, t, r)]) = [fst (advance o (snd s) l t r)]) as E.
  { cbn [run_calls]. destruct (advance _ _ _ _ _). reflexivity. }
  rewrite E in Hn |- *. clear E. rewrite ignitions_app in Hn |- * by apply run_flags. set (k := ignitions level history (fst s)) in *.
  destruct (Nat.eqb_spec l level) as [-> | N]; cbn [andb] in *.
  2:{ rewrite Nat.add_0_r in *. apply IH. exact Hn. }
  destruct (fst (advance o (snd s) level t r)) eqn:F.
  2:{ rewrite Nat.add_0_r in *. apply IH. exact Hn. }
  replace (k + 1 - 1)%nat with k by lia. apply advance_next in F as [F _].
  unfold s in F. rewrite next_history in F by (try assumption; unfold initial_times; rewrite repeat_length; exact Hl). fold s in F. fold k in F.
  specialize (Ht level t r ltac:(apply in_or_app; right; left; reflexivity)). lra.
Qed.
