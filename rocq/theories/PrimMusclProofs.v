(** Lemmas for C127 to C129. *)
From Coq Require Import List Reals Lra Lia Bool Arith Psatz.
From Verif Require Import GasModel GasSpec GasProofs HllemModel HllemSpec HllemProofs PrimMusclModel PrimMusclSpec.
Import ListNotations.
Local Open Scope R_scope.

(** ** the limiter *)
Definition eps : R := 1 / 1000000000000.
Lemma limiter_small qL qM qR : Rabs (1 / 2 * (qR - qL)) <= eps -> limiter qL qM qR = 0.
Proof.
  intros H. unfold limiter. fold eps. destruct (Rlt_dec eps (Rabs (1 / 2 * (qR - qL)))) as [N|_]; [lra|]. destruct (Rlt_dec 0 0) as [N|_]; [lra|]. cbn zeta. destruct (Rlt_dec 0 1) as [_|N]; [|lra]. field.
Qed.
Lemma limiter_extremum qL qM qR : (qM - qL) * (qR - qM) <= 0 -> limiter qL qM qR = 0.
Proof.
  intros H. unfold limiter. fold eps. set (d := 1 / 2 * (qR - qL)). destruct (Rlt_dec eps (Rabs d)) as [N|N].
  - assert (D : d <> 0) by (intros E; rewrite E, Rabs_R0 in N; unfold eps in N; lra). cbn zeta.
    assert (P : (qM - qL) / d * ((qR - qM) / d) <= 0). { replace ((qM - qL) / d * ((qR - qM) / d)) with ((qM - qL) * (qR - qM) * ((/ d) * (/ d))) by (field; exact D). assert (0 <= / d * / d) by apply Rle_0_sqr. rewrite <- (Rmult_0_l (/ d * / d)). apply Rmult_le_compat_r; assumption. }
    destruct (Rlt_dec 0 ((qM - qL) / d)) as [A|A]; [destruct (Rlt_dec 0 ((qR - qM) / d)) as [B|B]|]; try (destruct (Rlt_dec 0 1); [field|lra]).
    pose proof (Rmult_lt_0_compat _ _ A B). lra.
  - cbn zeta. destruct (Rlt_dec 0 0) as [M|_]; [lra|]. destruct (Rlt_dec 0 1) as [_|M]; [|lra]. field.
Qed.
(** monotone data *)
Lemma limiter_up qL qM qR : qL < qM -> qM < qR -> eps < 1 / 2 * (qR - qL) -> limiter qL qM qR = harmonic (Rmin (qM - qL) (qR - qM)) (1 / 2 * (qR - qL)).
Proof.
  intros H1 H2 H3. unfold limiter. fold eps. set (d := 1 / 2 * (qR - qL)) in *. assert (D : 0 < d) by (unfold eps in H3; lra). rewrite (Rabs_pos_eq d) by lra. destruct (Rlt_dec eps d) as [_|N]; [|lra]. cbn zeta.
  assert (A : 0 < (qM - qL) / d) by (apply Rdiv_lt_0_compat; lra). assert (B : 0 < (qR - qM) / d) by (apply Rdiv_lt_0_compat; lra). destruct (Rlt_dec 0 ((qM - qL) / d)) as [_|N]; [|lra]. destruct (Rlt_dec 0 ((qR - qM) / d)) as [_|N]; [|lra].
  assert (M : Rmin ((qM - qL) / d) ((qR - qM) / d) = Rmin (qM - qL) (qR - qM) / d).
  { destruct (Rle_dec (qM - qL) (qR - qM)) as [L|L].
    - rewrite (Rmin_left (qM - qL)) by exact L. apply Rmin_left. apply Rmult_le_compat_r; [left; apply Rinv_0_lt_compat; lra|lra].
    - rewrite (Rmin_right (qM - qL)) by lra. apply Rmin_right. apply Rmult_le_compat_r; [left; apply Rinv_0_lt_compat; lra|lra]. }
  rewrite M. set (m := Rmin (qM - qL) (qR - qM)). assert (M0 : 0 < m) by (unfold m; apply Rmin_glb_lt; lra). assert (M1 : m <= d) by (unfold m, d; pose proof (Rmin_l (qM - qL) (qR - qM)); pose proof (Rmin_r (qM - qL) (qR - qM)); lra).
  assert (Q : m / d <= 1) by (apply Rmult_le_reg_r with d; [lra|]; unfold Rdiv; rewrite Rmult_assoc, Rinv_l by lra; lra). assert (Q0 : 0 < m / d) by (apply Rdiv_lt_0_compat; lra).
  unfold harmonic. destruct (Rlt_dec (m / d) 1) as [L|L].
  - field. repeat split; lra.
  - assert (E : m / d = 1) by lra. assert (m = d) by (replace m with (m / d * d) by (field; lra); rewrite E; ring). rewrite E, H. field. lra.
Qed.
Lemma limiter_neg qL qM qR : limiter (- qL) (- qM) (- qR) = - limiter qL qM qR.
Proof.
  unfold limiter. fold eps. replace (1 / 2 * (- qR - - qL)) with (- (1 / 2 * (qR - qL))) by ring. rewrite Rabs_Ropp. set (d := 1 / 2 * (qR - qL)). destruct (Rlt_dec eps (Rabs d)) as [N|N]; cbn zeta.
  - assert (D : d <> 0) by (intros E; rewrite E, Rabs_R0 in N; unfold eps in N; lra). replace ((- qM - - qL) / - d) with ((qM - qL) / d) by (field; exact D). replace ((- qR - - qM) / - d) with ((qR - qM) / d) by (field; exact D). ring.
  - ring.
Qed.
Lemma limiter_swap qL qM qR : limiter qR qM qL = - limiter qL qM qR.
Proof.
  unfold limiter. fold eps. replace (1 / 2 * (qL - qR)) with (- (1 / 2 * (qR - qL))) by ring. rewrite Rabs_Ropp. set (d := 1 / 2 * (qR - qL)). destruct (Rlt_dec eps (Rabs d)) as [N|N]; cbn zeta.
  - assert (D : d <> 0) by (intros E; rewrite E, Rabs_R0 in N; unfold eps in N; lra). replace ((qM - qR) / - d) with ((qR - qM) / d) by (field; exact D). replace ((qL - qM) / - d) with ((qM - qL) / d) by (field; exact D). rewrite (Rmin_comm ((qR - qM) / d)).
    destruct (Rlt_dec 0 ((qM - qL) / d)), (Rlt_dec 0 ((qR - qM) / d)); ring.
  - ring.
Qed.
Lemma harmonic_le a b : 0 < a -> a <= b -> 0 < harmonic a b /\ harmonic a b <= b /\ harmonic a b <= 2 * a /\ a <= harmonic a b.
Proof.
  intros A B. unfold harmonic. assert (P : 0 < a * b) by (apply Rmult_lt_0_compat; lra). assert (S0 : 0 < a + b) by lra. assert (K : (2 * (a * b) / (a + b)) * (a + b) = 2 * (a * b)) by (field; lra).
  split; [apply Rdiv_lt_0_compat; lra|]. split; [|split]; apply Rmult_le_reg_r with (a + b); try lra; rewrite ?K; nra.
Qed.
Lemma limiter_bounds qL qM qR : qL <= qM -> qM <= qR -> 0 <= limiter qL qM qR <= 1 / 2 * (qR - qL) /\ limiter qL qM qR <= 2 * (qM - qL) /\ limiter qL qM qR <= 2 * (qR - qM).
Proof.
  intros H1 H2. destruct (Rle_dec (1 / 2 * (qR - qL)) eps) as [E|E].
  - rewrite limiter_small by (rewrite Rabs_pos_eq; lra). lra.
  - destruct (Rle_dec qM qL) as [A|A]; [|destruct (Rle_dec qR qM) as [B|B]].
    + rewrite limiter_extremum by (replace qM with qL by lra; lra). lra.
    + rewrite limiter_extremum by (replace qR with qM by lra; lra). lra.
    + rewrite limiter_up by lra. set (m := Rmin _ _). assert (M0 : 0 < m) by (unfold m; apply Rmin_glb_lt; lra). pose proof (Rmin_l (qM - qL) (qR - qM)) as L. pose proof (Rmin_r (qM - qL) (qR - qM)) as R. fold m in L, R. destruct (harmonic_le m (1 / 2 * (qR - qL)) M0 ltac:(lra)) as (P & Q & S0 & _). lra.
Qed.
Lemma limiter_same q r : limiter q q r = 0 /\ limiter r q q = 0 .
Proof. split; apply limiter_extremum; lra. Qed.

(** ** states for HLLEM *)
Lemma norm2_ext n v w : (forall i, (i < n)%nat -> v i = w i) -> norm2 n v = norm2 n w.
Proof. induction n as [|n IH]; intros H; [reflexivity|]. cbn. rewrite IH by (intros; apply H; lia). rewrite H by lia. reflexivity. Qed.
Lemma norm2_scale n c v : norm2 n (fun i => c * v i) = c * c * norm2 n v.
Proof. induction n as [|n IH]; cbn; [ring|]. rewrite IH. ring. Qed.
Lemma state_same n g v w : same n v w -> state n g v = state n g w.
Proof.
  intros (A & B & C). unfold state. rewrite A, B, (norm2_ext n (vel v) (vel w) C). f_equal. apply map_ext_in. intros i Hi. apply in_seq in Hi. rewrite C by lia. reflexivity.
Qed.
Lemma complete_state n g w : rho w <> 0 -> CompleteFromPrim n g w = state n g w.
Proof. intros H. unfold CompleteFromPrim, state. rewrite norm2_scale. f_equal. field. exact H. Qed.
Lemma complete_same n g v w : same n v w -> CompleteFromPrim n g v = CompleteFromPrim n g w.
Proof.
  intros (A & B & C). unfold CompleteFromPrim. rewrite A, B. rewrite (norm2_ext n (fun i => rho w * vel v i) (fun i => rho w * vel w i)) by (intros; rewrite C by assumption; reflexivity). f_equal. apply map_ext_in. intros i Hi. apply in_seq in Hi. rewrite C by lia. reflexivity.
Qed.
Lemma sum_app l l' : sum (l ++ l') = sum l + sum l'.
Proof. induction l as [|x l IH]; cbn; [ring|]. rewrite IH. ring. Qed.
Lemma sum_squares n v : sum (map (fun x => x * x) (map v (seq 0 n))) = norm2 n v.
Proof. induction n as [|n IH]; [reflexivity|]. rewrite seq_S, !map_app, sum_app, IH. cbn. ring. Qed.
Lemma state_admissible n g w : 0 < rho w -> 0 < pre w -> 1 < gamma g -> gamma_minus_1_inv g = 1 / (gamma g - 1) -> mix_admissible n 1 (state n g w).
Proof.
  intros A B C D. unfold mix_admissible, state. cbn [m_mom m_rho m_p m_a m_gamma m_E]. rewrite map_length, seq_length. repeat split; try assumption.
  - apply sqrt_lt_R0. apply Rdiv_lt_0_compat; [apply Rmult_lt_0_compat; lra|exact A].
  - rewrite map_map. unfold kinetic. rewrite (map_ext _ (vel w)) by (intros i; field; lra). rewrite sum_squares, D. field. lra.
Qed.
Lemma nth_state n g w d : (d < n)%nat -> nth d (m_mom (state n g w)) 0 = rho w * vel w d.
Proof. intros H. unfold state. cbn [m_mom]. rewrite (nth_indep _ 0 (rho w * vel w 0)) by (rewrite map_length, seq_length; exact H). rewrite (map_nth (fun i => rho w * vel w i) (seq 0 n) 0%nat d), seq_nth by exact H. reflexivity. Qed.

Definition gas_ok (g : gas) : Prop := 1 < gamma g /\ gamma_minus_1_inv g = 1 / (gamma g - 1).
Lemma hllem_same n g v w d : (1 <= n <= 3)%nat -> (d < n)%nat -> gas_ok g -> 0 < rho w -> 0 < pre w -> same n v w ->
  HllemFlux_lane true n 1 (state n g v) (state n g w) d = euler_flux 1 (state n g w) d.
Proof. intros N D (G1 & G2) A B E. rewrite (state_same n g v w E). apply lane_consistent; try assumption; [lra|]. apply state_admissible; assumption. Qed.
Lemma hllem_contact n g v w d : (1 <= n <= 3)%nat -> (d < n)%nat -> gas_ok g -> 0 < rho v -> 0 < rho w -> 0 < pre v -> pre v = pre w -> vel v d = 0 -> vel w d = 0 ->
  HllemFlux_lane true n 1 (state n g v) (state n g w) d = pressure_flux n d (pre v) 0.
Proof.
  intros N D (G1 & G2) A B P Q U V. rewrite contact_lane; auto.
  - apply state_admissible; assumption.
  - apply state_admissible; try assumption. lra.
  - unfold resting_contact. rewrite !nth_state by exact D. rewrite U, V. cbn. repeat split; try ring. exact Q.
Qed.

(** ** slopes and half steps *)
Lemma left_taylor lambda d m a dm n dt dx : dx <> 0 -> rho m <> 0 -> lambda = dt / dx -> same n (rec_left lambda d m a dm) (taylor d m a (per_length dx dm) (dx / 2) (dt / 2)).
Proof.
  intros H H' ->. unfold same, rec_left, taylor, rate, per_length. cbn [rho vel pre]. split; [field; exact H|]. split; [field; exact H|]. intros i _. destruct (Nat.eqb i d); field; auto.
Qed.
Lemma right_taylor lambda d m a dm n dt dx : dx <> 0 -> rho m <> 0 -> lambda = dt / dx -> same n (rec_right lambda d m a dm) (taylor d m a (per_length dx dm) (- (dx / 2)) (dt / 2)).
Proof.
  intros H H' ->. unfold same, rec_right, taylor, rate, per_length. cbn [rho vel pre]. split; [field; exact H|]. split; [field; exact H|]. intros i _. destruct (Nat.eqb i d); field; auto.
Qed.
Lemma indices d : (d < 3)%nat -> (d = 0 \/ d = 1 \/ d = 2)%nat.
Proof. lia. Qed.
Lemma char_taylor n slope right q lambda d dt dx : (n <= 3)%nat -> (d < n)%nat -> dx <> 0 -> density q <> 0 -> speed_of_sound q <> 0 -> lambda = dt / dx ->
  same n (Reconstruct n slope right q lambda d) (taylor d (prim_of q) (speed_of_sound q) (per_length dx (Recombine slope (density q * speed_of_sound q) (1 / (speed_of_sound q * speed_of_sound q)) d)) (if right then - (dx / 2) else dx / 2) (dt / 2)).
Proof.
  intros N D H H1 H2 ->. destruct slope as [k0 k1 k2 k3 k4], q as [r mo p c]. cbn [density momentum pressure speed_of_sound] in *. unfold same, Reconstruct, taylor, rate, per_length, Recombine, DoTimeStep, prim_of, MakeIndices. cbn [density momentum pressure speed_of_sound minus zero plus cv cw].
  assert (n = 1 \/ n = 2 \/ n = 3)%nat as [-> | [-> | ->]] by lia; destruct (indices d ltac:(lia)) as [-> | [-> | ->]]; try (exfalso; lia); (split; [destruct right; cbn; field; auto|]); (split; [destruct right; cbn; field; auto|]); intros i Hi;
    assert (i = 0 \/ i = 1 \/ i = 2)%nat as [-> | [-> | ->]] by lia; try (exfalso; lia); destruct right; cbn; field; auto.
Qed.
