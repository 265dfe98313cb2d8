(** Lemmas for C87: the iteration for packs. *)
From Coq Require Import List ZArith Reals Lia Lra Bool Psatz.
From Verif Require Import EnergyModel EnergyProofs EnergyProofs2.
Import ListNotations.
Local Open Scope R_scope.

Section OneLane.
Variables (u cv : R -> R) (target Ts cmin cmax Q kappa tol : R).
Hypothesis Hc : 0 < cmin.
Hypothesis Hlip : forall x y, x <= y -> cmin * (y - x) <= u y - u x <= cmax * (y - x).
Hypothesis Hcv : forall x, cmin <= cv x <= cmax.
Hypothesis Hroot : u Ts = target.
Hypothesis HQ : 4 / 3 <= Q.
Hypothesis Hratio : cmax <= Q * cmin.
Hypothesis Hk : 3 / 4 <= kappa < 1.
Hypothesis HkQ : 1 - / Q <= kappa.
Hypothesis Htol : 0 < tol <= 100.

Notation low := (low u cv target Ts kappa).
Notation high := (high u cv target Ts kappa).
Notation at_root := (at_root u cv target Ts).
Notation step := (step target).
Notation next := (next u cv target).
Notation accurate := (accurate u target Ts cmax Q tol).

Definition settled (s : newton) : Prop :=
  at_root s \/
  (exists A B, low s A B /\ A * Q * Q < tol) \/ (exists A B, high s A B /\ B * Q * Q < tol) \/
  (exists A B, (low s A B \/ high s A B) /\ A * Q < tol /\ B * Q < tol).

Inductive pending (N : nat) (s : newton) : Prop :=
| P_settled : settled s -> pending N s
| P_near i j A B : low s A B \/ high s A B -> A <= Q * 100 -> B <= Q * 100 ->
    kappa ^ i * A * Q * Q < tol -> kappa ^ j * B * Q * Q < tol -> (i + j <= N)%nat -> pending N s
| P_far_low k m A B : low s A B -> Utop s < target -> A <= Q * 100 + 100 * INR m -> B <= Q * 100 ->
    kappa ^ k * (Q * 100) * Q * Q < tol -> (k + k + m <= N)%nat -> pending N s
| P_far_high k m A B : high s A B -> target < Ubot s -> B <= Q * 100 + 100 * INR m -> A <= Q * 100 ->
    kappa ^ k * (Q * 100) * Q * Q < tol -> (k + k + m <= N)%nat -> pending N s.

Lemma QQ A : 0 <= A -> A * Q * Q < tol -> A * Q < tol.
Proof. intros H1 H2. assert (0 <= A * Q) by (apply Rmult_le_pos; lra). assert (A * Q * 1 <= A * Q * Q) by (apply Rmult_le_compat_l; lra). lra. Qed.

Lemma low_exact s A B : low s A B -> low s (Ts - Tnew s) B.
Proof. intros (H1 & H2 & H3 & H4 & H5 & H6). split; [exact H1|]. do 3 (split; [assumption|]). split; [lra|exact H6]. Qed.
Lemma high_exact s A B : high s A B -> high s A (Tnew s - Ts).
Proof. intros (H1 & H2 & H3 & H4 & H5 & H6). split; [exact H1|]. do 3 (split; [assumption|]). split; [lra|exact H6]. Qed.

Lemma next_root s T : u T = target -> (low s (Ts - T) 0 \/ True) -> (Ubot s < target -> Tbot s < Ts) -> at_root (next s T).
Proof.
  intros E _ Hb. assert (T = Ts) as ->.
  { destruct (Rtotal_order T Ts) as [L|[F|G]]; [|exact F|].
    - pose proof (u_lt u cmin cmax Hc Hlip T Ts L). lra.
    - pose proof (u_lt u cmin cmax Hc Hlip Ts T G). lra. }
  unfold EnergyProofs.next, new_bounds. cbn [l_state l_u l_cv l_target]. split; [repeat split|].
  cbn [Tnew Ubot Tbot]. split; [reflexivity|]. rewrite E. destruct (Rlt_dec target target); [lra|]. exact Hb.
Qed.

Lemma bot_low s A B : low s A B -> Ubot s < target -> Tbot s < Ts.
Proof. intros (_ & H & E & _) _. rewrite E. exact H. Qed.
Lemma bot_high s A B : high s A B -> Ubot s < target -> Tbot s < Ts.
Proof. intros (_ & _ & _ & _ & _ & [[H _]|(_ & H & _)]) L; [lra|exact H]. Qed.

Lemma settled_pass s : settled s -> settled (next s (Tnew s + step s)).
Proof.
  intros [H|[(A & B & H & HA)|[(A & B & H & HB)|(A & B & H & HA & HB)]]].
  - left. assert (step s = 0) as -> by (eapply root_step; eassumption). destruct H as (H1 & H2 & H3).
    apply next_root; [rewrite Rplus_0_r, H2; exact Hroot|right; exact I|exact H3].
  - destruct (bounds_nonneg u cv target Ts kappa Hk s A B (or_introl H)) as [PA PB].
    pose proof (low_exact s A B H) as HE. pose proof H as (_ & HT & _ & _ & HD & _).
    pose proof (low_step u cv target Ts cmin cmax Q kappa Hc Hlip Hcv Hroot HQ Hratio Hk s A B H) as (S1 & S2 & S3 & S4).
    assert ((Ts - Tnew s) * Q * Q < tol) as HAe.
    { apply Rle_lt_trans with (A * Q * Q); [|exact HA]. apply Rmult_le_compat_r; [lra|]. apply Rmult_le_compat_r; lra. }
    assert (Ts - Tnew s <= Q * 100) as A100.
    { assert ((Ts - Tnew s) * 1 <= (Ts - Tnew s) * Q) by (apply Rmult_le_compat_l; lra). pose proof (QQ (Ts - Tnew s) ltac:(lra) HAe). lra. }
    destruct (low_pass u cv target Ts cmin cmax Q kappa Hc Hlip Hcv Hroot HQ Hratio Hk HkQ s (Ts - Tnew s) B HE A100) as [P|[[_ P]|[_ P]]].
    + left. apply next_root; [exact P|right; exact I|exact (bot_low s A B H)].
    + right. left. exists (kappa * (Ts - Tnew s)), B. split; [exact P|].
      apply Rle_lt_trans with ((Ts - Tnew s) * Q * Q); [|exact HAe]. apply Rmult_le_compat_r; [lra|]. apply Rmult_le_compat_r; [lra|]. apply kappa_shrinks; try assumption; lra.
    + right. right. right. apply high_exact in P. exists (Ts - Tnew s), (Tnew (next s (Tnew s + step s)) - Ts).
      split; [right; exact P|]. split; [apply QQ; [lra|exact HAe]|].
      unfold EnergyProofs.next at 1, new_bounds. cbn [l_state Tnew].
      apply Rle_lt_trans with ((Ts - Tnew s) * Q * Q); [|exact HAe]. apply Rmult_le_compat_r; [lra|]. lra.
  - destruct (bounds_nonneg u cv target Ts kappa Hk s A B (or_intror H)) as [PA PB].
    pose proof (high_exact s A B H) as HE. pose proof H as (_ & HT & _ & _ & HD & _).
    pose proof (high_step u cv target Ts cmin cmax Q kappa Hc Hlip Hcv Hroot HQ Hratio Hk s A B H) as (S1 & S2 & S3 & S4).
    assert ((Tnew s - Ts) * Q * Q < tol) as HBe.
    { apply Rle_lt_trans with (B * Q * Q); [|exact HB]. apply Rmult_le_compat_r; [lra|]. apply Rmult_le_compat_r; lra. }
    assert (Tnew s - Ts <= Q * 100) as B100.
    { assert ((Tnew s - Ts) * 1 <= (Tnew s - Ts) * Q) by (apply Rmult_le_compat_l; lra). pose proof (QQ (Tnew s - Ts) ltac:(lra) HBe). lra. }
    destruct (high_pass u cv target Ts cmin cmax Q kappa Hc Hlip Hcv Hroot HQ Hratio Hk HkQ s A (Tnew s - Ts) HE B100) as [P|[[_ P]|[_ P]]].
    + left. apply next_root; [exact P|right; exact I|exact (bot_high s A B H)].
    + right. right. left. exists A, (kappa * (Tnew s - Ts)). split; [exact P|].
      apply Rle_lt_trans with ((Tnew s - Ts) * Q * Q); [|exact HBe]. apply Rmult_le_compat_r; [lra|]. apply Rmult_le_compat_r; [lra|]. apply kappa_shrinks; try assumption; lra.
    + right. right. right. apply low_exact in P. exists (Ts - Tnew (next s (Tnew s + step s))), (Tnew s - Ts).
      split; [left; exact P|]. split; [|apply QQ; [lra|exact HBe]].
      unfold EnergyProofs.next at 1, new_bounds. cbn [l_state Tnew].
      apply Rle_lt_trans with ((Tnew s - Ts) * Q * Q); [|exact HBe]. apply Rmult_le_compat_r; [lra|]. lra.
  - destruct (bounds_nonneg u cv target Ts kappa Hk s A B H) as [PA PB].
    pose proof (kappa_shrinks kappa Hk A PA) as KA. pose proof (kappa_shrinks kappa Hk B PB) as KB.
    assert (A * 1 <= A * Q) by (apply Rmult_le_compat_l; lra). assert (B * 1 <= B * Q) by (apply Rmult_le_compat_l; lra).
    assert (kappa * A * Q <= A * Q) by (apply Rmult_le_compat_r; lra). assert (kappa * B * Q <= B * Q) by (apply Rmult_le_compat_r; lra).
    destruct H as [H|H].
    + destruct (low_pass u cv target Ts cmin cmax Q kappa Hc Hlip Hcv Hroot HQ Hratio Hk HkQ s A B H ltac:(lra)) as [P|[[_ P]|[_ P]]].
      * left. apply next_root; [exact P|right; exact I|exact (bot_low s A B H)].
      * right. right. right. exists (kappa * A), B. split; [left; exact P|split; lra].
      * right. right. right. exists A, (kappa * B). split; [right; exact P|split; lra].
    + destruct (high_pass u cv target Ts cmin cmax Q kappa Hc Hlip Hcv Hroot HQ Hratio Hk HkQ s A B H ltac:(lra)) as [P|[[_ P]|[_ P]]].
      * left. apply next_root; [exact P|right; exact I|exact (bot_high s A B H)].
      * right. right. right. exists A, (kappa * B). split; [right; exact P|split; lra].
      * right. right. right. exists (kappa * A), B. split; [left; exact P|split; lra].
Qed.

Lemma settled_small s : settled s -> Rabs (step s) < tol.
Proof.
  intros [H|[(A & B & H & HA)|[(A & B & H & HB)|(A & B & H & HA & HB)]]].
  - assert (step s = 0) as -> by (eapply root_step; eassumption). rewrite Rabs_R0. lra.
  - eapply small_low; try eassumption. apply QQ; [|exact HA]. apply (bounds_nonneg u cv target Ts kappa Hk s A B (or_introl H)).
  - eapply small_high; try eassumption. apply QQ; [|exact HB]. apply (bounds_nonneg u cv target Ts kappa Hk s A B (or_intror H)).
  - destruct H as [H|H]; [eapply small_low|eapply small_high]; eassumption.
Qed.

Lemma near_pass N i j A B s : low s A B \/ high s A B -> A <= Q * 100 -> B <= Q * 100 ->
  kappa ^ i * A * Q * Q < tol -> kappa ^ j * B * Q * Q < tol -> (i + j <= S N)%nat -> pending N (next s (Tnew s + step s)).
Proof.
  intros HS HA HB Hi Hj Hn. destruct (bounds_nonneg u cv target Ts kappa Hk s A B HS) as [PA PB].
  pose proof (kappa_shrinks kappa Hk A PA) as KA. pose proof (kappa_shrinks kappa Hk B PB) as KB.
  destruct HS as [HS|HS].
  - destruct i as [|i].
    { apply P_settled. apply settled_pass. right. left. exists A, B. split; [exact HS|]. cbn [pow] in Hi. lra. }
    destruct (low_pass u cv target Ts cmin cmax Q kappa Hc Hlip Hcv Hroot HQ Hratio Hk HkQ s A B HS HA) as [P|[[_ P]|[_ P]]].
    + apply P_settled. left. apply next_root; [exact P|right; exact I|exact (bot_low s A B HS)].
    + apply (P_near N _ i j (kappa * A) B); try lra; try lia; [left; exact P|]. cbn [pow] in Hi. lra.
    + destruct j as [|j].
      * apply P_settled. right. right. left. exists A, (kappa * B). split; [exact P|]. cbn [pow] in Hj.
        apply Rle_lt_trans with (B * Q * Q); [|lra]. apply Rmult_le_compat_r; [lra|]. apply Rmult_le_compat_r; lra.
      * apply (P_near N _ (S i) j A (kappa * B)); try lra; try lia; [right; exact P|]. cbn [pow] in Hj. lra.
  - destruct j as [|j].
    { apply P_settled. apply settled_pass. right. right. left. exists A, B. split; [exact HS|]. cbn [pow] in Hj. lra. }
    destruct (high_pass u cv target Ts cmin cmax Q kappa Hc Hlip Hcv Hroot HQ Hratio Hk HkQ s A B HS HB) as [P|[[_ P]|[_ P]]].
    + apply P_settled. left. apply next_root; [exact P|right; exact I|exact (bot_high s A B HS)].
    + apply (P_near N _ i j A (kappa * B)); try lra; try lia; [right; exact P|]. cbn [pow] in Hj. lra.
    + destruct i as [|i].
      * apply P_settled. right. left. exists (kappa * A), B. split; [exact P|]. cbn [pow] in Hi.
        apply Rle_lt_trans with (A * Q * Q); [|lra]. apply Rmult_le_compat_r; [lra|]. apply Rmult_le_compat_r; lra.
      * apply (P_near N _ i (S j) (kappa * A) B); try lra; try lia; [left; exact P|]. cbn [pow] in Hi. lra.
Qed.

Lemma pow_bound k B : 0 <= B -> B <= Q * 100 -> kappa ^ k * (Q * 100) * Q * Q < tol -> kappa ^ k * B * Q * Q < tol.
Proof.
  intros H1 H2 H3. assert (0 <= kappa ^ k) by (apply pow_le; lra). apply Rle_lt_trans with (kappa ^ k * (Q * 100) * Q * Q); [|exact H3].
  apply Rmult_le_compat_r; [lra|]. apply Rmult_le_compat_r; [lra|]. apply Rmult_le_compat_l; lra.
Qed.

Lemma pending_pass N s : pending (S N) s -> pending N (next s (Tnew s + step s)).
Proof.
  intros [H|i j A B HS HA HB Hi Hj Hn|k m A B HS Hno HA HB Hk2 Hn|k m A B HS Hno HB HA Hk2 Hn].
  - apply P_settled. apply settled_pass. exact H.
  - eapply near_pass; eassumption.
  - destruct (bounds_nonneg u cv target Ts kappa Hk s A B (or_introl HS)) as [PA PB].
    destruct (Rle_dec (Ts - Tnew s) (Q * 100)) as [L|L].
    + pose proof HS as (_ & HT & _). eapply (near_pass N k k (Ts - Tnew s) B); try assumption; try lia.
      * left. eapply low_exact. exact HS.
      * apply pow_bound; [lra|exact L|exact Hk2].
      * apply pow_bound; assumption.
    + edestruct (low_far u cv target Ts cmin cmax Q kappa) as (F1 & F2 & F3 & F4); try eassumption; [lra|].
      pose proof HS as (_ & HT & _ & _ & HD & _).
      destruct m as [|m]; [cbn in HA; lra|]. rewrite S_INR in HA.
      eapply (P_far_low N _ k m); try eassumption; [lra|lia].
  - destruct (bounds_nonneg u cv target Ts kappa Hk s A B (or_intror HS)) as [PA PB].
    destruct (Rle_dec (Tnew s - Ts) (Q * 100)) as [L|L].
    + pose proof HS as (_ & HT & _). eapply (near_pass N k k A (Tnew s - Ts)); try assumption; try lia.
      * right. eapply high_exact. exact HS.
      * apply pow_bound; assumption.
      * apply pow_bound; [lra|exact L|exact Hk2].
    + edestruct (high_far u cv target Ts cmin cmax Q kappa) as (F1 & F2 & F3 & F4); try eassumption; [lra|].
      pose proof HS as (_ & HT & _ & _ & HD & _).
      destruct m as [|m]; [cbn in HB; lra|]. rewrite S_INR in HB.
      eapply (P_far_high N _ k m); try eassumption; [lra|lia].
Qed.

Lemma pending_0 s : pending 0 s -> settled s.
Proof.
  intros [H|i j A B HS HA HB Hi Hj Hn|k m A B HS Hno HA HB Hk2 Hn|k m A B HS Hno HB HA Hk2 Hn].
  - exact H.
  - assert (i = 0 /\ j = 0)%nat as [-> ->] by lia. cbn [pow] in Hi, Hj. destruct HS as [HS|HS].
    + right. left. exists A, B. split; [exact HS|lra].
    + right. right. left. exists A, B. split; [exact HS|lra].
  - assert (k = 0 /\ m = 0)%nat as [-> ->] by lia. cbn [pow INR] in Hk2, HA. right. left. exists A, B. split; [exact HS|].
    apply Rle_lt_trans with (Q * 100 * Q * Q); [|lra]. apply Rmult_le_compat_r; [lra|]. apply Rmult_le_compat_r; lra.
  - assert (k = 0 /\ m = 0)%nat as [-> ->] by lia. cbn [pow INR] in Hk2, HB. right. right. left. exists A, B. split; [exact HS|].
    apply Rle_lt_trans with (Q * 100 * Q * Q); [|lra]. apply Rmult_le_compat_r; [lra|]. apply Rmult_le_compat_r; lra.
Qed.

Lemma pending_state N s : pending N s -> at_root s \/ exists A B, low s A B \/ high s A B.
Proof.
  intros [[H|[(A & B & H & HA)|[(A & B & H & HB)|(A & B & H & HA & HB)]]]|i j A B HS HA HB Hi Hj Hn|k m A B HS Hno HA HB Hk2 Hn|k m A B HS Hno HB HA Hk2 Hn];
    [left; exact H|right; exists A, B; tauto ..].
Qed.

Lemma pending_tracks N s : pending N s -> tracks u cv s.
Proof. intros H. destruct (pending_state N s H) as [H1|(A & B & [H1|H1])]; apply H1. Qed.

Lemma done_accurate N s : pending N s -> lane_done tol (mkLane u cv target s) (step s) (Tnew s + step s) = true -> accurate (Tnew s + step s).
Proof.
  intros HP HD. pose proof (pending_tracks N s HP) as Ht. unfold lane_done in HD. cbn [l_state l_target l_u] in HD.
  fold (denom target tol s) in HD.
  destruct (Rlt_dec (Rabs (target - u (Tnew s + step s))) _) as [E|E].
  - right. rewrite Rabs_minus_sym. pose proof (denom_le u cv target cmin cmax tol Hc Hcv Htol s Ht).
    apply Rle_trans with (denom target tol s * (1 / 100000 * tol)); [lra|]. rewrite (Rmult_comm (denom target tol s)). apply Rmult_le_compat_l; lra.
  - destruct (Rlt_dec (Rabs (step s)) tol) as [F|F]; [|discriminate]. left.
    destruct (pending_state N s HP) as [H1|(A & B & [H1|H1])].
    + assert (step s = 0) as -> by (eapply root_step; eassumption). destruct H1 as (_ & -> & _).
      replace (Ts + 0 - Ts) with 0 by ring. rewrite Rabs_R0. apply Rmult_le_pos; lra.
    + eapply accurate_low; eassumption.
    + eapply accurate_high; eassumption.
Qed.

Lemma pending_start N k m T0 : Rabs (Ts - T0) <= Q * 100 + 100 * INR m -> 100 <= kappa * (Q * 100) ->
  kappa ^ k * (Q * 100) * Q * Q < tol -> (k + k + m <= N)%nat -> pending N (newton_start u cv T0).
Proof.
  intros HD HB Hk2 Hn. destruct (Rtotal_order T0 Ts) as [L|[E|G]].
  - rewrite Rabs_right in HD by lra.
    apply (P_far_low N _ k m (Q * 100 + 100 * INR m) (Q * 100)); try lra; try lia; try assumption.
    + split; [repeat split|]. cbn. split; [exact L|]. do 2 (split; [reflexivity|]). split; [exact HD|].
      left. split; [|exact HB]. rewrite <- Hroot. eapply u_lt; eassumption.
    + cbn. rewrite <- Hroot. eapply u_lt; eassumption.
  - subst T0. apply P_settled. left. split; [repeat split|]. cbn. split; [reflexivity|]. intros X. rewrite Hroot in X. lra.
  - rewrite Rabs_left in HD by lra.
    apply (P_far_high N _ k m (Q * 100) (Q * 100 + 100 * INR m)); try lra; try lia; try assumption.
    + split; [repeat split|]. cbn. split; [exact G|]. do 2 (split; [reflexivity|]). split; [lra|].
      left. split; [|exact HB]. rewrite <- Hroot. eapply u_lt; eassumption.
    + cbn. rewrite <- Hroot. eapply u_lt; eassumption.
Qed.
End OneLane.

(** ** All lanes *)

Section Pack.
Variables (Q kappa tol : R).
Hypothesis HQ : 4 / 3 <= Q.
Hypothesis Hk : 3 / 4 <= kappa < 1.
Hypothesis HkQ : 1 - / Q <= kappa.
Hypothesis Htol : 0 < tol <= 100.

(** a lane with its solution and bounds of its heat capacity *)
Definition regular (l : lane) (Ts cmin cmax : R) : Prop :=
  0 < cmin /\ (forall x y, x <= y -> cmin * (y - x) <= l_u l y - l_u l x <= cmax * (y - x)) /\
  (forall x, cmin <= l_cv l x <= cmax) /\ l_u l Ts = l_target l /\ cmax <= Q * cmin.

Definition lane_pending (N : nat) (l : lane) (b : R * R * R) : Prop :=
  let '(Ts, cmin, cmax) := b in
  regular l Ts cmin cmax /\ pending (l_u l) (l_cv l) (l_target l) Ts Q kappa tol N (l_state l).

Definition lane_accurate (l : lane) (b : R * R * R) (T : R) : Prop :=
  let '(Ts, cmin, cmax) := b in accurate (l_u l) (l_target l) Ts cmax Q tol T.

Definition lane_T (l : lane) : R := Tnew (l_state l) + step (l_target l) (l_state l).

Lemma lane_step_eq N l b : lane_pending N l b -> lane_step l = step (l_target l) (l_state l) /\ forall x, 0 < l_cv l x.
Proof.
  destruct b as [[Ts cmin] cmax]. intros ((H1 & H2 & H3 & H4 & H5) & HP). split.
  - assert (tracks (l_u l) (l_cv l) (l_state l)) as (_ & E & _) by (eapply pending_tracks; eassumption). unfold lane_step. rewrite E.
    pose proof (H3 (Tnew (l_state l))). destruct (Rlt_dec _ 0); [lra|]. unfold step. rewrite E. reflexivity.
  - intros x. specialize (H3 x). lra.
Qed.

Lemma pass_pack_eq N lanes bs : Forall2 (lane_pending N) lanes bs ->
  stay_stable_pack 10 (map (fun l => (l, lane_step l)) lanes) = map (fun l => (step (l_target l) (l_state l), lane_T l)) lanes.
Proof.
  intros H. cbn [stay_stable_pack].
  assert (forall l, In l lanes -> lane_step l = step (l_target l) (l_state l) /\ forall x, 0 < l_cv l x) as A.
  { intros l I. induction H as [|l' b lanes bs HP _ IH]; [contradiction|]. destruct I as [<- |I]; [exact (lane_step_eq N _ b HP)|exact (IH I)]. }
  destruct (existsb _ _) eqn:E.
  - exfalso. apply existsb_exists in E as (p & I & E). apply in_map_iff in I as (l & <- & I). cbn [fst snd] in E.
    destruct (A l I) as [_ C]. specialize (C (Tnew (l_state l) + lane_step l)). destruct (Rlt_dec _ 0); [lra|discriminate].
  - rewrite map_map. apply map_ext_in. intros l I. cbn [fst snd]. destruct (A l I) as [-> _]. reflexivity.
Qed.

Lemma combine_map_self {A B} (f : A -> B) (l : list A) : combine l (map f l) = map (fun x => (x, f x)) l.
Proof. induction l as [|x l IH]; [reflexivity|]. cbn. rewrite IH. reflexivity. Qed.

Lemma next_lane l T : new_bounds l T = mkLane (l_u l) (l_cv l) (l_target l) (next (l_u l) (l_cv l) (l_target l) (l_state l) T).
Proof. reflexivity. Qed.

Lemma pack_terminates : forall N lanes bs, Forall2 (lane_pending N) lanes bs ->
  exists Ts, iterate_pack (S N) tol lanes = Some Ts /\ Forall2 (fun lb T => lane_accurate (fst lb) (snd lb) T) (combine lanes bs) Ts.
Proof.
  induction N as [|N IH]; intros lanes bs H; cbn [iterate_pack]; unfold pass_pack; rewrite (pass_pack_eq _ lanes bs H).
  all: rewrite map_map; cbn [snd]; rewrite combine_map_self.
  all: match goal with |- context [forallb ?f ?l] => destruct (forallb f l) eqn:E1 end.
  1, 3: exists (map lane_T lanes); split; [reflexivity|]; clear - H E1 HQ Hk HkQ Htol;
    induction H as [|l b lanes bs HP _ IH]; [constructor|]; cbn [map forallb combine fst snd] in *;
    apply andb_true_iff in E1 as [E1 E2]; constructor; [|exact (IH E2)]; cbn [fst snd];
    destruct b as [[Ts cmin] cmax]; destruct HP as ((H1 & H2 & H3 & H4 & H5) & HP);
    destruct (Req_EM_T _ _) as [E|E]; [|discriminate]; exact (root_accurate _ _ _ _ _ _ _ H1 H2 H4 HQ Htol _ E).
  all: match goal with |- context [forallb ?f ?l] => destruct (forallb f l) eqn:E2 end.
  1, 3: exists (map lane_T lanes); split; [reflexivity|]; clear - H E2 HQ Hk HkQ Htol;
    induction H as [|l b lanes bs HP _ IH]; [constructor|]; cbn [map forallb combine fst snd] in *;
    apply andb_true_iff in E2 as [E1 E2]; constructor; [|exact (IH E2)]; cbn [fst snd];
    destruct b as [[Ts cmin] cmax]; destruct HP as ((H1 & H2 & H3 & H4 & H5) & HP);
    destruct l as [lu lcv lt ls]; eapply done_accurate; eassumption.
  - exfalso. clear E1. assert (forallb (fun p : lane * (R * R) => lane_done tol (fst p) (fst (snd p)) (snd (snd p)))
      (map (fun x => (x, (step (l_target x) (l_state x), lane_T x))) lanes) = true) as F; [|congruence].
    clear E2. induction H as [|l b lanes bs HP _ IH]; [reflexivity|]. cbn [map forallb]. apply andb_true_iff. split; [|exact IH].
    destruct b as [[Ts cmin] cmax]. destruct HP as ((H1 & H2 & H3 & H4 & H5) & HP). apply pending_0 in HP; [|assumption..].
    apply (settled_small _ _ _ _ cmin cmax Q kappa tol H1 H2 H3 H4 HQ H5 Hk Htol) in HP.
    unfold lane_done. cbn [fst snd]. destruct (Rlt_dec _ _); [reflexivity|]. destruct (Rlt_dec _ tol); [reflexivity|contradiction].
  - rewrite map_map. cbn [fst snd].
    edestruct (IH (map (fun x => new_bounds x (lane_T x)) lanes) bs) as (Ts & E & F).
    + clear - H HQ Hk HkQ Htol. induction H as [|l b lanes bs HP _ IH]; [constructor|]. cbn [map]. constructor; [|exact IH].
      destruct b as [[Ts cmin] cmax]. destruct HP as ((H1 & H2 & H3 & H4 & H5) & HP). rewrite next_lane. split; [repeat split; try assumption; try apply H2; try apply H3; assumption|].
      cbn [l_u l_cv l_target l_state]. exact (pending_pass _ _ _ _ cmin cmax Q kappa tol H1 H2 H3 H4 HQ H5 Hk HkQ Htol N _ HP).
    + exists Ts. split; [exact E|]. clear - F. revert bs Ts F. induction lanes as [|l lanes IH]; intros bs Ts F.
      * cbn in *. exact F.
      * destruct bs as [|b bs]; cbn [map combine] in *; [exact F|]. inversion F as [|x T xs Ts' F1 F2]; subst. constructor; [|exact (IH _ _ F2)].
        cbn [fst snd] in *. exact F1.
Qed.
End Pack.
