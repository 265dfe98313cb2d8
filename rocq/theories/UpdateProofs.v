(** Lemmas about cell-wise updates. *)
From Coq Require Import List ZArith Reals Lia Lra Bool Permutation.
From Verif Require Import ArrayModel ArraySpec ArrayProofs BoxProofs UpdateModel UpdateSpec.
Import ListNotations.
Local Open Scope Z_scope.

Lemma done_nil K m : jobs_done K [] m m.
Proof. split; [intros a j []|reflexivity]. Qed.

Lemma in_dests_dec (jobs : list job) x :
  {a | In a jobs /\ In x (fst a)} + {forall a, In a jobs -> ~ In x (fst a)}.
Proof.
  induction jobs as [|a jobs [(b & H1 & H2)|IH]].
  - right. intros a [].
  - left. exists b. split; [right; assumption|assumption].
  - destruct (in_dec Z.eq_dec x (fst a)) as [H|H].
    + left. exists a. split; [left; reflexivity|assumption].
    + right. intros b [<-|Hb]; [assumption|apply IH; assumption].
Qed.

Lemma done_alloc K jobs m m' x : jobs_done K jobs m m' -> allocated m x -> allocated m' x.
Proof.
  intros [H1 H2] Ha. unfold allocated in *. destruct (in_dests_dec jobs x) as [(a & Hin & Hx)|Hn].
  - destruct (In_nth _ _ 0 Hx) as (j & Hj & <-). rewrite H1 by assumption. discriminate.
  - rewrite H2 by assumption. assumption.
Qed.

Lemma done_app K A B m m1 m2 :
  conflict_free (A ++ B) -> jobs_done K A m m1 -> jobs_done K B m1 m2 -> jobs_done K (A ++ B) m m2.
Proof.
  intros (Hn & Hd & Hc) [A1 A2] [B1 B2].
  assert (forall a, In a A -> In a B -> False) as Hdis.
  { clear - Hn. induction A as [|x A IH]; intros a Ha Hb; [destruct Ha|].
    cbn in Hn. inversion Hn as [|? ? N1 N2]; subst. destruct Ha as [<-|Ha].
    - apply N1, in_or_app. right; assumption.
    - eapply IH; eassumption. }
  split.
  - intros a j Hin Hj. apply in_app_or in Hin as [Hin|Hin].
    + rewrite B2; [apply A1; assumption|]. intros b Hb Hx.
      assert (a = b); [|subst; eapply Hdis; eassumption].
      apply (Hc a b (nth j (fst a) 0)); [apply in_or_app; left; assumption|apply in_or_app; right; assumption| |].
      * apply nth_In; assumption.
      * left; assumption.
    + rewrite B1 by assumption. do 3 f_equal. apply map_ext_in. intros s Hs. unfold val.
      rewrite A2; [reflexivity|]. intros b Hb Hx.
      assert (b = a); [|subst; eapply Hdis; eassumption].
      apply (Hc b a s); [apply in_or_app; left; assumption|apply in_or_app; right; assumption|assumption|].
      right; assumption.
  - intros x Hx. rewrite B2, A2; [reflexivity| |].
    + intros a Ha. apply Hx, in_or_app. left; assumption.
    + intros a Ha. apply Hx, in_or_app. right; assumption.
Qed.

Lemma cf_app_l A B : conflict_free (A ++ B) -> conflict_free A.
Proof.
  intros (H1 & H2 & H3). split; [|split].
  - clear - H1. induction A as [|a A IH]; [constructor|]. cbn in H1. inversion H1; subst. constructor.
    + intros H. apply H2, in_or_app. left; assumption.
    + apply IH; assumption.
  - intros a Ha. apply H2, in_or_app. left; assumption.
  - intros a b x Ha Hb. apply H3; apply in_or_app; left; assumption.
Qed.

Lemma cf_app_r A B : conflict_free (A ++ B) -> conflict_free B.
Proof.
  intros (H1 & H2 & H3). split; [|split].
  - clear - H1. induction A as [|a A IH]; [assumption|]. cbn in H1. inversion H1; subst. apply IH; assumption.
  - intros a Ha. apply H2, in_or_app. right; assumption.
  - intros a b x Ha Hb. apply H3; apply in_or_app; right; assumption.
Qed.

Lemma alloc_app_l A B m : jobs_allocated (A ++ B) m -> jobs_allocated A m.
Proof. intros H a x Ha. apply H, in_or_app. left; assumption. Qed.

Lemma alloc_app_r K A B m m' : jobs_allocated (A ++ B) m -> jobs_done K A m m' -> jobs_allocated B m'.
Proof. intros H Hd a x Ha Hx. eapply done_alloc; [eassumption|]. apply (H a x); [apply in_or_app; right; assumption|assumption]. Qed.

Lemma done_unique K jobs jobs' m m1 m2 :
  (forall a, In a jobs <-> In a jobs') -> jobs_done K jobs m m1 -> jobs_done K jobs' m m2 -> forall x, m1 x = m2 x.
Proof.
  intros He [A1 A2] [B1 B2] x. destruct (in_dests_dec jobs x) as [(a & Hin & Hx)|Hn].
  - destruct (In_nth _ _ 0 Hx) as (j & Hj & <-). rewrite A1, B1; try assumption; [reflexivity|].
    apply He; assumption.
  - rewrite A2, B2; [reflexivity| |assumption]. intros a Ha. apply Hn, He; assumption.
Qed.

(** ** Loads and stores *)

Lemma load_ok m p n : (forall k, (k < n)%nat -> allocated m (p + Z.of_nat k)) ->
  load m p n = Some (map (fun k => val m (p + Z.of_nat k)) (seq 0 n)).
Proof.
  revert p; induction n as [|n IH]; intros p H; [reflexivity|]. cbn [load].
  rewrite IH.
  - unfold val at 2. pose proof (H 0%nat ltac:(lia)) as H0. rewrite Z.add_0_r in H0. unfold allocated in H0.
    destruct (m p) as [x|] eqn:E; [|contradiction].
    rewrite <- cons_seq, <- seq_shift. cbn [map]. rewrite map_map. f_equal. f_equal.
    + rewrite Z.add_0_r, E. reflexivity.
    + apply map_ext. intros k. unfold val. replace (p + Z.of_nat (S k)) with (p + 1 + Z.of_nat k) by lia. reflexivity.
  - intros k Hk. replace (p + 1 + Z.of_nat k) with (p + Z.of_nat (S k)) by lia. apply H. lia.
Qed.

Lemma loads_ok m ps n : (forall p k, In p ps -> (k < n)%nat -> allocated m (p + Z.of_nat k)) ->
  loads m ps n = Some (map (fun p => map (fun k => val m (p + Z.of_nat k)) (seq 0 n)) ps).
Proof.
  induction ps as [|p ps IH]; intros H; [reflexivity|]. cbn [loads].
  rewrite load_ok, IH; [reflexivity| |].
  - intros q k Hq. apply H. right; assumption.
  - intros k. apply H. left; reflexivity.
Qed.

Lemma store_ok m p vs : (forall k, (k < length vs)%nat -> allocated m (p + Z.of_nat k)) ->
  exists m', store m p vs = Some m' /\
    (forall k, (k < length vs)%nat -> m' (p + Z.of_nat k) = Some (nth k vs 0%R)) /\
    (forall a, (forall k, (k < length vs)%nat -> a <> p + Z.of_nat k) -> m' a = m a).
Proof.
  revert m p; induction vs as [|v vs IH]; intros m p H.
  - exists m. split; [reflexivity|]. split; [simpl; lia|reflexivity].
  - cbn [store]. pose proof (H 0%nat ltac:(simpl; lia)) as H0. rewrite Z.add_0_r in H0. unfold allocated in H0.
    destruct (m p) as [x|] eqn:E; [|contradiction].
    destruct (IH (set m p v) (p + 1)) as (m' & E' & H1 & H2).
    { intros k Hk. unfold allocated, set. destruct (Z.eqb_spec (p + 1 + Z.of_nat k) p); [discriminate|].
      replace (p + 1 + Z.of_nat k) with (p + Z.of_nat (S k)) by lia. apply H. simpl. lia. }
    exists m'. split; [assumption|]. split.
    + intros [|k] Hk.
      * rewrite Z.add_0_r. rewrite H2 by lia. unfold set. rewrite Z.eqb_refl. reflexivity.
      * replace (p + Z.of_nat (S k)) with (p + 1 + Z.of_nat k) by lia. cbn [nth]. apply H1. simpl in Hk. lia.
    + intros a Ha. rewrite H2.
      * unfold set. destruct (Z.eqb_spec a p) as [->|]; [|reflexivity].
        exfalso. apply (Ha 0%nat); simpl; lia.
      * intros k Hk. specialize (Ha (S k) ltac:(simpl; lia)). lia.
Qed.

(** Stores to pairwise disjoint intervals *)
Lemma stores_ok n m ps vs :
  length vs = length ps -> Forall (fun v => length v = n) vs ->
  (forall p k, In p ps -> (k < n)%nat -> allocated m (p + Z.of_nat k)) ->
  (forall i j k l, (i < length ps)%nat -> (j < length ps)%nat -> (k < n)%nat -> (l < n)%nat ->
     nth i ps 0 + Z.of_nat k = nth j ps 0 + Z.of_nat l -> i = j) ->
  exists m', stores m ps vs = Some m' /\
    (forall i k, (i < length ps)%nat -> (k < n)%nat -> m' (nth i ps 0 + Z.of_nat k) = Some (nth k (nth i vs []) 0%R)) /\
    (forall a, (forall p k, In p ps -> (k < n)%nat -> a <> p + Z.of_nat k) -> m' a = m a).
Proof.
  revert m vs; induction ps as [|p ps IH]; intros m [|v vs] Hl Hf Ha Hd; try discriminate.
  - exists m. split; [reflexivity|]. split; [simpl; lia|reflexivity].
  - inversion Hf as [|? ? Hv Hf']; subst.
    destruct (store_ok m p v) as (m1 & E1 & S1 & S2).
    { intros k Hk. apply Ha; [left; reflexivity|assumption]. }
    destruct (IH m1 vs) as (m' & E' & H1 & H2).
    + simpl in Hl. lia.
    + assumption.
    + intros q k Hq Hk. unfold allocated.
      destruct (Z_lt_dec (q + Z.of_nat k) p) as [C|C].
      * rewrite S2 by lia. apply Ha; [right; assumption|assumption].
      * destruct (Z_lt_dec (q + Z.of_nat k) (p + Z.of_nat (length v))) as [D|D].
        -- replace (q + Z.of_nat k) with (p + Z.of_nat (Z.to_nat (q + Z.of_nat k - p))) by lia.
           rewrite S1 by lia. discriminate.
        -- rewrite S2 by lia. apply Ha; [right; assumption|assumption].
    + intros i j k l Hi Hj Hk Hll E. specialize (Hd (S i) (S j) k l). simpl in Hd. lia.
    + exists m'. cbn [stores]. rewrite E1. split; [assumption|]. split.
      * intros [|i] k Hi Hk.
        -- cbn [nth]. rewrite H2; [apply S1; assumption|].
           intros q l Hq Hll E. destruct (In_nth _ _ 0 Hq) as (j & Hj & <-).
           specialize (Hd 0%nat (S j) k l). simpl in Hd. lia.
        -- cbn [nth]. apply H1; [simpl in Hi; lia|assumption].
      * intros a Hx. rewrite H2, S2; [reflexivity| |].
        -- intros k Hk. apply Hx; [left; reflexivity|assumption].
        -- intros q k Hq. apply Hx. right; assumption.
Qed.

(** ** Chunks *)

Section Chunks.
Context (width : nat) (kernel : list (list R) -> list (list R)) (K : list R -> list R) (stale : nat -> list R).
Context (ns nd : nat).
Hypothesis Hlane : lanewise width ns nd kernel K.
Hypothesis Hwidth : (1 <= width)%nat.
Hypothesis Hstale : forall n, (n <= width)%nat -> length (stale n) = (width - n)%nat.
Hypothesis Hnd : (1 <= nd)%nat.

(** The jobs of a row of [n] cells *)
Definition row_jobs (dests srcs : list Z) (n : nat) : list job :=
  map (fun k => (advance_by (Z.of_nat k) dests, advance_by (Z.of_nat k) srcs)) (seq 0 n).

Lemma nth_advance k ps i : (i < length ps)%nat -> nth i (advance_by k ps) 0 = nth i ps 0 + k.
Proof using Type.
  intros H. unfold advance_by. rewrite (nth_indep _ 0 (0 + k)) by (rewrite map_length; assumption).
  apply map_nth with (f := fun p => p + k).
Qed.

Lemma process_done m dests srcs n :
  length dests = nd -> length srcs = ns -> (n <= width)%nat ->
  conflict_free (row_jobs dests srcs n) -> jobs_allocated (row_jobs dests srcs n) m ->
  exists m', process kernel stale m dests srcs n = Some m' /\ jobs_done K (row_jobs dests srcs n) m m'.
Proof using All.
  intros Ld Ls Hn (C1 & C2 & C3) Ha.
  assert (forall k, (k < n)%nat -> In (advance_by (Z.of_nat k) dests, advance_by (Z.of_nat k) srcs) (row_jobs dests srcs n)) as Hin.
  { intros k Hk. unfold row_jobs. apply in_map_iff. exists k. split; [reflexivity|apply in_seq; lia]. }
  unfold process. rewrite loads_ok.
  2:{ intros p k Hp Hk. apply (Ha _ _ (Hin k Hk)). right. cbn [snd]. unfold advance_by. apply in_map_iff. eauto. }
  set (vs := map (fun v => v ++ stale n) (map (fun p => map (fun k => val m (p + Z.of_nat k)) (seq 0 n)) srcs)).
  assert (Forall (fun v : list R => length v = width) vs) as Hvs.
  { unfold vs. apply Forall_forall. intros v Hv. apply in_map_iff in Hv as (w & <- & Hw).
    apply in_map_iff in Hw as (p & <- & _). rewrite app_length, map_length, seq_length, Hstale by assumption. lia. }
  destruct (Hlane vs) as (L1 & L2 & L3); [unfold vs; rewrite !map_length; assumption|assumption|].
  assert (forall k, (k < n)%nat -> map (fun v => nth k v 0%R) vs = map (val m) (advance_by (Z.of_nat k) srcs)) as Hval.
  { intros k Hk. unfold vs, advance_by. rewrite !map_map. apply map_ext. intros p.
    rewrite app_nth1 by (rewrite map_length, seq_length; assumption).
    rewrite (nth_indep _ 0%R (val m (p + Z.of_nat 0))) by (rewrite map_length, seq_length; assumption).
    rewrite (map_nth (fun k => val m (p + Z.of_nat k))). rewrite seq_nth by assumption. reflexivity. }
  destruct (stores_ok n m dests (map (firstn n) (kernel vs))) as (m' & E & S1 & S2).
  - rewrite map_length. congruence.
  - apply Forall_forall. intros v Hv. apply in_map_iff in Hv as (w & <- & Hw).
    rewrite Forall_forall in L2. rewrite firstn_length, (L2 w Hw). lia.
  - intros p k Hp Hk. apply (Ha _ _ (Hin k Hk)). left. cbn [fst]. unfold advance_by. apply in_map_iff. eauto.
  - intros i j k l Hi Hj Hk Hl Eq.
    assert ((advance_by (Z.of_nat k) dests, advance_by (Z.of_nat k) srcs) =
            (advance_by (Z.of_nat l) dests, advance_by (Z.of_nat l) srcs)) as Ej.
    { apply (C3 _ _ (nth i dests 0 + Z.of_nat k)); [apply Hin; assumption|apply Hin; assumption| |].
      - cbn [fst]. apply in_map_iff. exists (nth i dests 0). split; [reflexivity|apply nth_In; assumption].
      - left. cbn [fst]. rewrite Eq. apply in_map_iff. exists (nth j dests 0). split; [reflexivity|apply nth_In; assumption]. }
    assert (k = l) as ->.
    { injection Ej as Ej _. destruct dests as [|d dests]; [simpl in Ld; lia|]. cbn [advance_by map] in Ej. injection Ej as Ej _. lia. }
    pose proof (C2 _ (Hin l Hl)) as N. cbn [fst] in N.
    eapply (proj1 (NoDup_nth _ 0)); [exact N| | |]; unfold advance_by; rewrite ?map_length; try assumption.
    change (nth i (advance_by (Z.of_nat l) dests) 0 = nth j (advance_by (Z.of_nat l) dests) 0).
    rewrite !nth_advance by assumption. assumption.
  - exists m'. split; [exact E|]. split.
    + intros a j Hina Hj. unfold row_jobs in Hina. apply in_map_iff in Hina as (k & <- & Hk). apply in_seq in Hk.
      cbn [fst snd] in *. assert (j < length dests)%nat as Hj' by (unfold advance_by in Hj; rewrite map_length in Hj; assumption).
      rewrite nth_advance by assumption. rewrite S1 by lia. f_equal.
      rewrite <- Hval by lia. rewrite <- L3 by lia.
      rewrite (nth_indep _ [] (firstn n [])) by (rewrite map_length; lia). rewrite map_nth.
      rewrite (nth_indep (map (fun v : list R => nth k v 0%R) (kernel vs)) 0%R (nth k (@nil R) 0%R)) by (rewrite map_length; lia).
      rewrite (map_nth (fun v => nth k v 0%R)).
      assert (j < length (kernel vs))%nat as Hjk by lia.
      rewrite Forall_forall in L2. pose proof (L2 _ (nth_In _ [] Hjk)) as Lw.
      rewrite <- (firstn_skipn n (nth j (kernel vs) [])) at 2. rewrite app_nth1; [reflexivity|].
      rewrite firstn_length. lia.
    + intros x Hx. apply S2. intros p k Hp Hk E'. apply (Hx _ (Hin k Hk)). cbn [fst]. unfold advance_by.
      apply in_map_iff. exists p. split; [lia|assumption].
Qed.

Lemma advance_by_plus a b ps : advance_by a (advance_by b ps) = advance_by (a + b) ps.
Proof using Type. unfold advance_by. rewrite map_map. apply map_ext. intros; ring. Qed.

Lemma row_jobs_split dests srcs a b :
  row_jobs dests srcs (a + b) =
  row_jobs dests srcs a ++ row_jobs (advance_by (Z.of_nat a) dests) (advance_by (Z.of_nat a) srcs) b.
Proof using Type.
  clear Hlane Hwidth Hstale Hnd. unfold row_jobs. rewrite seq_app, map_app. f_equal. rewrite Nat.add_0_l.
  rewrite <- (Nat.add_0_r a) at 1. generalize 0%nat as z. induction b as [|b IH]; intros z; [reflexivity|].
  cbn [seq map]. rewrite <- Nat.add_succ_r, IH. f_equal. rewrite !advance_by_plus. f_equal; f_equal; lia.
Qed.

Lemma chunk_loop_done fuel m last dests srcs n :
  length dests = nd -> length srcs = ns -> last = nthZ dests 0 + Z.of_nat n -> (n < fuel)%nat ->
  conflict_free (row_jobs dests srcs n) -> jobs_allocated (row_jobs dests srcs n) m ->
  exists m', chunk_loop width kernel stale fuel m last dests srcs = Finished m' /\ jobs_done K (row_jobs dests srcs n) m m'.
Proof using All.
  revert m dests srcs n; induction fuel as [|fuel IH]; intros m dests srcs n Ld Ls El Hf Hc Ha; [lia|].
  cbn [chunk_loop]. replace (last - nthZ dests 0) with (Z.of_nat n) by lia.
  destruct (Z.leb_spec (Z.of_nat width) (Z.of_nat n)) as [Hw|Hw].
  - replace n with (width + (n - width))%nat in Hc, Ha |- * by lia. rewrite row_jobs_split in Hc, Ha |- *.
    destruct (process_done m dests srcs width) as (m1 & E1 & D1);
      [assumption|assumption|lia|eapply cf_app_l; eassumption|eapply alloc_app_l; eassumption|].
    rewrite E1.
    destruct (IH m1 (advance_by (Z.of_nat width) dests) (advance_by (Z.of_nat width) srcs) (n - width)%nat) as (m2 & E2 & D2).
    + unfold advance_by; rewrite map_length; assumption.
    + unfold advance_by; rewrite map_length; assumption.
    + unfold nthZ in *. rewrite nth_advance by lia. lia.
    + lia.
    + eapply cf_app_r; eassumption.
    + eapply alloc_app_r; eassumption.
    + exists m2. split; [exact E2|]. eapply done_app; eassumption.
  - rewrite Nat2Z.id. destruct (process_done m dests srcs n) as (m1 & E1 & D1); try assumption; [lia|].
    rewrite E1. exists m1. split; [reflexivity|assumption].
Qed.

(** The jobs of a list of rows *)
Definition call_jobs (rows : list row) : list job :=
  row_jobs (firstn nd (map fst rows)) (skipn nd (map fst rows)) (Z.to_nat (match rows with r :: _ => snd r | [] => 0 end)).

Lemma process_rows_done fuel m calls :
  Forall (fun rows => length rows = (nd + ns)%nat /\ 0 <= match rows with r :: _ => snd r | [] => 0 end < Z.of_nat fuel) calls ->
  conflict_free (flat_map call_jobs calls) -> jobs_allocated (flat_map call_jobs calls) m ->
  exists m', process_rows width kernel stale fuel nd m calls = Finished m' /\ jobs_done K (flat_map call_jobs calls) m m'.
Proof using All.
  revert m; induction calls as [|rows calls IH]; intros m Hf Hc Ha.
  - exists m. split; [reflexivity|apply done_nil].
  - inversion Hf as [|? ? [Hl He] Hf']; subst. cbn [process_rows flat_map] in *.
    destruct (chunk_loop_done fuel m
      (nthZ (map fst rows) 0 + match rows with r :: _ => snd r | [] => 0 end)
      (firstn nd (map fst rows)) (skipn nd (map fst rows))
      (Z.to_nat (match rows with r :: _ => snd r | [] => 0 end))) as (m1 & E1 & D1).
    + rewrite firstn_length, map_length. lia.
    + rewrite skipn_length, map_length. lia.
    + rewrite Z2Nat.id by lia. f_equal. unfold nthZ.
      destruct nd as [|nd']; [lia|]. destruct rows; [simpl in Hl; lia|]. reflexivity.
    + lia.
    + eapply cf_app_l; eassumption.
    + eapply alloc_app_l; eassumption.
    + fold (call_jobs rows) in D1. cbv zeta.
      match goal with |- context [chunk_loop ?a ?b ?c ?d ?e ?f ?g ?h] =>
        replace (chunk_loop a b c d e f g h) with (Finished m1) by (symmetry; exact E1) end.
      destruct (IH m1 Hf') as (m2 & E2 & D2).
      * eapply cf_app_r; eassumption.
      * eapply alloc_app_r; eassumption.
      * exists m2. split; [exact E2|]. eapply done_app; eassumption.
Qed.

End Chunks.

(** ** Rows of views *)

Definition view_call (ext : Z) (views : list PatchDataView) (outer : list Z) : list row :=
  map (fun v => (md_at (pdv_span v) (0 :: outer), ext)) views.

Lemma rows_any rank v0 rest :
  Forall (row_view rank) (v0 :: rest) -> rows_shape rank (md_map (pdv_span v0)) ->
  exists N, forall fuel, (N < fuel)%nat ->
    ForEachRow fuel rank (v0 :: rest) =
    LoopDone (map (view_call (extent0 v0 0) (v0 :: rest))
                  (loop_indices (repeat 0 (rank - 1)) (tl (map_extents (md_map (pdv_span v0)))))).
Proof.
  intros Hv Hs. pose proof (Forall_inv Hv) as [Hr0 _]. remember (v0 :: rest) as views eqn:Ev.
  rewrite Forall_forall in Hv.
  destruct rank as [|[|[|[|rank]]]]; [contradiction Hs| | | |contradiction Hs].
  - exists 0%nat. intros fuel _. unfold ForEachRow.
    replace (nth 0 views (mkView (mkMdspan 0 (LayoutLeft [])) [])) with v0 by (subst views; reflexivity).
    destruct (map_extents (md_map (pdv_span v0))) as [|e0 [|]] eqn:Ee; try discriminate.
    cbn [tl Nat.sub repeat loop_indices]. cbv zeta. f_equal. unfold map at 3. f_equal. unfold view_call. rewrite map_map.
    apply map_ext_in. intros v Hin. destruct (Hv v Hin) as [Hr H0]. rewrite md_at_1 by assumption.
    unfold extent0. rewrite Ee. cbn [nth nthZ]. rewrite Z.mul_0_r, Z.add_0_r. reflexivity.
  - exists (Z.to_nat (extent0 v0 1)). intros fuel Hf. destruct (first_view_bounds v0 Hs) as (H1 & He & Hreq).
    pose proof (row_loop_spec v0 rest (extent0 v0 0) (required_span_size (md_map (pdv_span v0))) (extent0 v0 1)
                  H1 He Hreq (Z.to_nat (extent0 v0 1)) 0 fuel []) as H.
    cbv zeta in H. rewrite app_nil_l in H. rewrite <- Ev in H.
    rewrite (map_ext (fun v => ptr_of v + 0 * stride_of 1 v) ptr_of) in H by (intros; lia).
    unfold ForEachRow. replace (nth 0 views (mkView (mkMdspan 0 (LayoutLeft [])) [])) with v0 by (subst views; reflexivity).
    etransitivity; [exact (H ltac:(lia) ltac:(lia) ltac:(lia))|]. f_equal.
    destruct (map_extents (md_map (pdv_span v0))) as [|e0 [|e1 [|]]] eqn:Ee; try discriminate.
    unfold extent0 at 2. rewrite Ee. cbn [nth tl Nat.sub repeat loop_indices flat_map]. rewrite app_nil_r, map_map.
    apply map_ext. intros j. unfold view_call. apply map_ext_in. intros v Hin. destruct (Hv v Hin) as [Hr H0].
    rewrite md_at_2 by assumption. unfold ptr_of, stride_of. f_equal. lia.
  - destruct Hs as (_ & He1 & He2). exists 0%nat. intros fuel _. subst views. unfold ForEachRow. cbn [nth].
    etransitivity; [exact (f_equal LoopDone (fold_rows_z (v0 :: rest) (extent0 v0 0) (extent0 v0 1) (extent0 v0 2) He1 He2))|].
    f_equal. destruct (map_extents (md_map (pdv_span v0))) as [|e0 [|e1 [|e2 [|]]]] eqn:Ee; try discriminate.
    unfold extent0 at 2 3. rewrite Ee. cbn [nth tl Nat.sub repeat loop_indices flat_map]. rewrite app_nil_r.
    rewrite map_flat_map, flat_map_map. apply flat_map_ext. intros l. rewrite map_map. apply map_ext. intros j.
    unfold view_call. apply map_ext_in. intros v Hin. destruct (Hv v Hin) as [Hr H0].
    rewrite md_at_3 by assumption. unfold ptr_of, stride_of. f_equal. lia.
Qed.

Definition view_job (ds ss : list PatchDataView) (rel : list Z) : job :=
  (map (fun v => md_at (pdv_span v) rel) ds, map (fun v => md_at (pdv_span v) rel) ss).

Lemma md_at_row rank v k outer :
  row_view rank v -> length outer = (rank - 1)%nat -> (1 <= rank)%nat ->
  md_at (pdv_span v) (k :: outer) = md_at (pdv_span v) (0 :: outer) + k.
Proof.
  intros [Hr H0] Hl Hrank. unfold md_at.
  rewrite (map_index_shifted (md_map (pdv_span v)) (0 :: outer) (k :: outer) 0 k).
  - rewrite H0. lia.
  - cbn [length]. lia.
  - split; [reflexivity|]. split; [cbn; lia|]. intros [|j] Hj; [lia|reflexivity].
  - cbn [length]. lia.
Qed.

Lemma loop_indices_length lo up i : length lo = length up -> In i (loop_indices lo up) -> length i = length lo.
Proof. intros H Hi. apply (loop_indices_in lo up i) in Hi; [|assumption]. apply Hi. Qed.

Lemma call_jobs_view rank ds ss ext outer :
  (1 <= rank)%nat -> (1 <= length ds)%nat -> 0 <= ext -> Forall (row_view rank) (ds ++ ss) -> length outer = (rank - 1)%nat ->
  call_jobs (length ds) (view_call ext (ds ++ ss) outer) =
  map (fun k => view_job ds ss (k :: outer)) (zrange 0 ext).
Proof.
  intros Hrank Hd He Hv Hl. unfold call_jobs.
  assert (match view_call ext (ds ++ ss) outer with [] => 0 | r :: _ => snd r end = ext) as ->.
  { destruct ds; [simpl in Hd; lia|reflexivity]. }
  assert (map fst (view_call ext (ds ++ ss) outer) =
          map (fun x => md_at (pdv_span x) (0 :: outer)) ds ++ map (fun x => md_at (pdv_span x) (0 :: outer)) ss) as ->.
  { unfold view_call. rewrite map_map, map_app. reflexivity. }
  rewrite firstn_app, skipn_app, map_length, Nat.sub_diag, firstn_O, app_nil_r.
  rewrite <- (map_length (fun x => md_at (pdv_span x) (0 :: outer)) ds) at 1. rewrite firstn_all.
  rewrite skipn_all2 by (rewrite map_length; lia). cbn [app skipn].
  unfold row_jobs, zrange. rewrite Z.sub_0_r, map_map. apply map_ext. intros k. rewrite Z.add_0_l.
  rewrite Forall_forall in Hv. unfold view_job, advance_by. rewrite !map_map. f_equal.
  - apply map_ext_in. intros v Hin. symmetry. apply (md_at_row rank); [apply Hv, in_or_app; left; assumption|assumption|assumption].
  - apply map_ext_in. intros v Hin. symmetry. apply (md_at_row rank); [apply Hv, in_or_app; right; assumption|assumption|assumption].
Qed.

Lemma for_each_row_done width kernel K stale rank ds ss :
  lanewise width (length ss) (length ds) kernel K -> (1 <= width)%nat ->
  (forall n, (n <= width)%nat -> length (stale n) = (width - n)%nat) ->
  (1 <= length ds)%nat ->
  Forall (row_view rank) (ds ++ ss) ->
  (forall v0, nth_error ds 0 = Some v0 -> rows_shape rank (md_map (pdv_span v0)) /\ 0 <= extent0 v0 0) ->
  forall e, (forall v0, nth_error ds 0 = Some v0 -> e = map_extents (md_map (pdv_span v0))) ->
  conflict_free (map (view_job ds ss) (loop_indices (repeat 0 rank) e)) ->
  exists N, forall fuel m, (N < fuel)%nat ->
  jobs_allocated (map (view_job ds ss) (loop_indices (repeat 0 rank) e)) m ->
  exists m', for_each_row width kernel stale fuel (length ds) rank m (ds ++ ss) = Finished m' /\
    jobs_done K (map (view_job ds ss) (loop_indices (repeat 0 rank) e)) m m'.
Proof.
  intros Hlane Hw Hst Hd Hv Hs e He Hc. destruct ds as [|v0 ds]; [simpl in Hd; lia|].
  specialize (Hs v0 eq_refl). specialize (He v0 eq_refl). destruct Hs as [Hs He0].
  pose proof (Forall_inv Hv) as [Hr0 Hst0]. rewrite <- He in Hr0.
  assert (1 <= rank)%nat as Hrank by (destruct rank; [contradiction|lia]).
  destruct (rows_any rank v0 (ds ++ ss) Hv Hs) as (N & HN).
  assert (map (view_job (v0 :: ds) ss) (loop_indices (repeat 0 rank) e) =
          flat_map (call_jobs (length (v0 :: ds)))
            (map (view_call (extent0 v0 0) (v0 :: ds ++ ss)) (loop_indices (repeat 0 (rank - 1)) (tl e)))) as Ej.
  { destruct e as [|e0 e]; [cbn in Hr0; lia|]. destruct rank as [|rank]; [lia|].
    cbn [repeat loop_indices tl]. rewrite map_flat_map, flat_map_map. replace (S rank - 1)%nat with rank by lia.
    apply flat_map_ext_in. intros outer Ho.
    assert (length outer = rank) as Lo.
    { apply loop_indices_length in Ho; [rewrite repeat_length in Ho; assumption|].
      rewrite repeat_length. cbn [length] in Hr0. lia. }
    change (v0 :: ds ++ ss) with ((v0 :: ds) ++ ss).
    rewrite (call_jobs_view (S rank)); [|lia|assumption|assumption|assumption|lia].
    rewrite map_map. unfold extent0. rewrite <- He. reflexivity. }
  exists (Nat.max N (Z.to_nat (extent0 v0 0))). intros fuel m Hf Ha. rewrite Ej in Hc, Ha |- *.
  unfold for_each_row. change ((v0 :: ds) ++ ss) with (v0 :: ds ++ ss). rewrite HN by lia. rewrite <- He.
  apply (process_rows_done width kernel K stale (length ss) (length (v0 :: ds)) Hlane Hw Hst Hd); [|assumption|assumption].
  apply Forall_forall. intros rows Hr. apply in_map_iff in Hr as (outer & <- & _).
  unfold view_call. rewrite map_length. cbn [map]. cbn [snd length]. rewrite app_length. lia.
Qed.

(** ** Sequential loops *)

Definition seq_step (K : list R -> list R) (job_of : list Z -> job) (is : list Z) (o : outcome) : outcome :=
  match o with
  | Finished m =>
      match loads m (snd (job_of is)) 1 with
      | Some vs => match stores m (fst (job_of is)) (map (fun x => [x]) (K (map (fun v => nth 0 v 0%R) vs))) with
                   | Some m' => Finished m' | None => Undefined end
      | None => Undefined
      end
  | o => o
  end.

Lemma single_done K (a : job) m :
  length (K (map (val m) (snd a))) = length (fst a) -> NoDup (fst a) -> jobs_allocated [a] m ->
  exists m', seq_step K (fun _ => a) [] (Finished m) = Finished m' /\ jobs_done K [a] m m'.
Proof.
  intros Hk Hd Ha. unfold seq_step.
  rewrite loads_ok.
  2:{ intros p k Hp Hk'. assert (k = 0)%nat as -> by lia. rewrite Z.add_0_r. apply (Ha a); [left; reflexivity|right; assumption]. }
  rewrite map_map. cbn [seq map nth]. rewrite (map_ext (fun x => val m (x + Z.of_nat 0)) (val m)) by (intros; f_equal; lia).
  destruct (stores_ok 1 m (fst a) (map (fun x => [x]) (K (map (val m) (snd a))))) as (m' & E & S1 & S2).
  - rewrite map_length. assumption.
  - apply Forall_forall. intros v Hv. apply in_map_iff in Hv as (x & <- & _). reflexivity.
  - intros p k Hp Hk'. assert (k = 0)%nat as -> by lia. rewrite Z.add_0_r. apply (Ha a); [left; reflexivity|left; assumption].
  - intros i j k l Hi Hj Hk' Hl E. assert (k = 0)%nat as -> by lia. assert (l = 0)%nat as -> by lia.
    rewrite !Z.add_0_r in E. eapply (proj1 (NoDup_nth _ 0)); eassumption.
  - rewrite E. exists m'. split; [reflexivity|]. split.
    + intros b j [<-|[]] Hj. specialize (S1 j 0%nat Hj ltac:(lia)). rewrite Z.add_0_r in S1. rewrite S1. f_equal.
      rewrite (nth_indep _ [] ((fun x : R => [x]) 0%R)) by (rewrite map_length; lia).
      rewrite (map_nth (fun x : R => [x])). reflexivity.
    + intros x Hx. apply S2. intros p k Hp Hk' E'. assert (k = 0)%nat as -> by lia.
      apply (Hx a (or_introl eq_refl)). replace x with p by lia. assumption.
Qed.

Lemma seq_done K job_of cells m :
  (forall i m, In i cells -> length (K (map (val m) (snd (job_of i)))) = length (fst (job_of i))) ->
  conflict_free (map job_of cells) -> jobs_allocated (map job_of cells) m ->
  exists m', fold_left (fun o i => seq_step K job_of i o) cells (Finished m) = Finished m' /\
             jobs_done K (map job_of cells) m m'.
Proof.
  revert m; induction cells as [|i cells IH]; intros m Hk Hc Ha.
  - exists m. split; [reflexivity|apply done_nil].
  - cbn [map] in *. change (job_of i :: map job_of cells) with ([job_of i] ++ map job_of cells) in *.
    destruct (single_done K (job_of i) m) as (m1 & E1 & D1).
    + apply Hk. left; reflexivity.
    + apply Hc. left; reflexivity.
    + eapply alloc_app_l; eassumption.
    + cbn [fold_left]. change (seq_step K job_of i (Finished m)) with (seq_step K (fun _ => job_of i) [] (Finished m)).
      rewrite E1. destruct (IH m1) as (m2 & E2 & D2).
      * intros j m' Hj. apply Hk. right; assumption.
      * eapply cf_app_r; eassumption.
      * eapply alloc_app_r; eassumption.
      * exists m2. split; [assumption|]. eapply done_app; eassumption.
Qed.
