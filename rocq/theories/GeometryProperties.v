(** Property C51: the signed distance to a polygon. *)
From Coq Require Import List ZArith Lia Reals Lra Bool.
From Verif Require Import GeometryModel GeometrySpec GeometryProofs GeometryProofs2.
Import ListNotations.
Local Open Scope R_scope.

(** The absolute value is the Euclidean distance to the polyline, for any number of vertices, any chunk size. *)
Theorem C51_distance : forall w xs ys p, (0 < w)%nat -> length ys = length xs -> (2 <= length xs)%nat ->
  exists r, ComputeDistanceTo w xs ys p = Some (Finite r) /\ is_distance distance (polyline (combine xs ys)) p (Rabs r).
Proof.
  intros w xs ys p W L N. destruct (compute_finite w xs ys p W L N) as (d & D & ->). eexists. split; [reflexivity|].
  assert (P : 0 <= d) by (destruct D as [(q & _ & <-) _]; apply distance_nonneg).
  replace (Rabs _) with d; [exact D|]. destruct (parity _ _); [rewrite Rmult_1_l|replace (-1 * d) with (- d) by ring; rewrite Rabs_Ropp]; symmetry; apply Rabs_pos_eq, P.
Qed.
Print Assumptions C51_distance.

(** The sign is decided by the parity of the number of edges crossed by the ray to the left. *)
Theorem C51_sign : forall w xs ys p, (0 < w)%nat -> length ys = length xs -> (2 <= length xs)%nat ->
  exists r n, ComputeDistanceTo w xs ys p = Some (Finite r) /\ number_of (crosses_ray p) (edges (combine xs ys)) n /\
    (Nat.Odd n -> 0 <= r) /\ (Nat.Even n -> r <= 0).
Proof.
  intros w xs ys p W L N. destruct (compute_finite w xs ys p W L N) as (d & D & ->).
  assert (P : 0 <= d) by (destruct D as [(q & _ & <-) _]; apply distance_nonneg).
  destruct (number_exists p (edges (combine xs ys))) as [n Hn]. eexists. exists n. split; [reflexivity|]. split; [exact Hn|].
  assert (E : parity (edges (combine xs ys)) p = Nat.odd n).
  { unfold parity. rewrite (number_crossed _ _ _ Hn). pose proof (rem_parity n) as Q. rewrite Z.rem_mod_nonneg, Zmod_odd in Q by lia.
    rewrite <- Q. destruct (Z.odd (Z.of_nat n)); reflexivity. }
  rewrite E. split; intros H.
  - apply Nat.odd_spec in H. rewrite H. lra.
  - apply Nat.even_spec in H. rewrite <- Nat.negb_even, H. cbn [negb]. lra.
Qed.
Print Assumptions C51_sign.

(** The distance is zero exactly on the polyline. *)
Theorem C51_zero : forall w xs ys p, (0 < w)%nat -> length ys = length xs -> (2 <= length xs)%nat ->
  ComputeDistanceTo w xs ys p = Some (Finite 0) <-> polyline (combine xs ys) p.
Proof.
  intros w xs ys p W L N. destruct (compute_finite w xs ys p W L N) as (d & [(q & Q1 & Q2) M] & ->). split.
  - intros E. injection E as E. assert (d = 0) by (destruct (parity _ _); lra). assert (p = q) as -> by (apply distance_zero; lra). exact Q1.
  - intros H. specialize (M p H). rewrite distance_refl in M. pose proof (distance_nonneg p q). assert (d = 0) as -> by lra. rewrite Rmult_0_r. reflexivity.
Qed.
Print Assumptions C51_zero.

(** For a closed polygon, points which can be joined without touching the polygon are on the same side. *)
Theorem C51_component : forall w xs ys p q, (0 < w)%nat -> length ys = length xs -> (2 <= length xs)%nat -> closed (combine xs ys) ->
  connected (polyline (combine xs ys)) p q ->
  exists r s, ComputeDistanceTo w xs ys p = Some (Finite r) /\ ComputeDistanceTo w xs ys q = Some (Finite s) /\
    (0 < r <-> 0 < s) /\ (r < 0 <-> s < 0).
Proof.
  intros w xs ys p q W L N C H. destruct (compute_finite w xs ys p W L N) as (d & D & Ep). destruct (compute_finite w xs ys q W L N) as (e & E & Eq).
  pose proof (connected_parity _ p q C H) as PQ. destruct H as [p|p q' q J H].
  - rewrite Ep in Eq. eexists. eexists. split; [exact Ep|]. split; [exact Ep|]. tauto.
  - assert (Np : ~ polyline (combine xs ys) p) by (apply J, end_v).
    assert (Nq : ~ polyline (combine xs ys) q).
    { apply (connected_avoids _ q' q H). apply J, end_w. }
    eexists. eexists. split; [exact Ep|]. split; [exact Eq|]. rewrite PQ.
    assert (0 < d).
    { destruct D as [(z & Z1 & Z2) _]. destruct (Req_dec d 0) as [->|]; [apply distance_zero in Z2; subst; contradiction|]. pose proof (distance_nonneg p z). lra. }
    assert (0 < e).
    { destruct E as [(z & Z1 & Z2) _]. destruct (Req_dec e 0) as [->|]; [apply distance_zero in Z2; subst; contradiction|]. pose proof (distance_nonneg q z). lra. }
    clear Ep Eq PQ. destruct (parity _ _); split; split; intros; lra.
Qed.
Print Assumptions C51_component.

(** All points of the outer component are outside: the value is negative. *)
Theorem C51_exterior : forall w xs ys p q, (0 < w)%nat -> length ys = length xs -> (2 <= length xs)%nat -> closed (combine xs ys) ->
  connected (polyline (combine xs ys)) p q -> beyond (combine xs ys) q ->
  exists r, ComputeDistanceTo w xs ys p = Some (Finite r) /\ r < 0.
Proof.
  intros w xs ys p q W L N C H B. destruct (C51_component w xs ys p q W L N C H) as (r & s & Er & Es & _ & RS).
  exists r. split; [exact Er|]. apply RS. destruct (compute_finite w xs ys q W L N) as (e & E & Eq). rewrite Eq in Es. injection Es as <-.
  rewrite (beyond_parity _ q C B). pose proof (beyond_not_on _ q B) as Nq.
  destruct E as [(z & Z1 & Z2) _]. destruct (Req_dec e 0) as [->|]; [apply distance_zero in Z2; subst; contradiction|]. pose proof (distance_nonneg q z). lra.
Qed.
Print Assumptions C51_exterior.

(** A polygon with one vertex gives minus infinity, a polygon without vertices is undefined behaviour. *)
Theorem C51_degenerate : forall w x y p, (0 < w)%nat ->
  ComputeDistanceTo w [x] [y] p = Some (Infinite false) /\ ComputeDistanceTo w [] [] p = None.
Proof.
  intros w x y p W. split.
  - rewrite compute_spec by (cbn; auto; lia). reflexivity.
  - unfold ComputeDistanceTo. cbn [length chunks]. destruct (Z.ltb_spec (Z.of_nat w + 1) (Z.of_nat 0 - Z.of_nat 0)); [lia|]. reflexivity.
Qed.
Print Assumptions C51_degenerate.

(** Moving to the right at a height without vertices flips the sign once for every edge passed. *)
Theorem C51_flip : forall w xs ys p q n, (0 < w)%nat -> length ys = length xs -> (2 <= length xs)%nat ->
  snd p = snd q -> fst p <= fst q -> (forall v, In v (combine xs ys) -> snd v <> snd p) ->
  ~ polyline (combine xs ys) p -> ~ polyline (combine xs ys) q ->
  number_of (fun e => exists z, on_segment (fst e) (snd e) z /\ on_segment p q z) (edges (combine xs ys)) n ->
  exists r s, ComputeDistanceTo w xs ys p = Some (Finite r) /\ ComputeDistanceTo w xs ys q = Some (Finite s) /\
    (Nat.Even n -> (0 < r /\ 0 < s) \/ (r < 0 /\ s < 0)) /\ (Nat.Odd n -> (0 < r /\ s < 0) \/ (r < 0 /\ 0 < s)).
Proof.
  intros w xs ys p q n W L N E X V Np Nq Hn.
  destruct (compute_finite w xs ys p W L N) as (d & D & Ep). destruct (compute_finite w xs ys q W L N) as (e & D' & Eq).
  assert (d0 : 0 < d).
  { destruct D as [(z & Z1 & Z2) _]. destruct (Req_dec d 0) as [->|]; [apply distance_zero in Z2; subst; contradiction|]. pose proof (distance_nonneg p z). lra. }
  assert (e0 : 0 < e).
  { destruct D' as [(z & Z1 & Z2) _]. destruct (Req_dec e 0) as [->|]; [apply distance_zero in Z2; subst; contradiction|]. pose proof (distance_nonneg q z). lra. }
  eexists. eexists. split; [exact Ep|]. split; [exact Eq|].
  assert (P : xorb (parity (edges (combine xs ys)) p) (parity (edges (combine xs ys)) q) = Nat.odd n).
  { apply flip_parity; [exact E|exact X| |exact Hn].
    intros a b I. destruct (edges_in _ a b I) as [Ia Ib]. split; [apply (V a Ia)|]. split; [apply (V b Ib)|]. split.
    - intros S. apply Np. exists a, b. split; assumption.
    - intros S. apply Nq. exists a, b. split; assumption. }
  split; intros H.
  - apply Nat.even_spec in H. rewrite <- Nat.negb_even, H in P. destruct (parity _ p), (parity _ q); try discriminate; [left|right]; lra.
  - apply Nat.odd_spec in H. rewrite H in P. destruct (parity _ p), (parity _ q); try discriminate; [left|right]; lra.
Qed.
Print Assumptions C51_flip.

(** The square with vertices (0,0), (2,0), (2,2), (0,2) and the points (1,1) inside and (-1,1) outside. *)
Example C51_example : let xs := [0; 2; 2; 0; 0] in let ys := [0; 0; 2; 2; 0] in
  closed (combine xs ys) /\ ComputeDistanceTo 8 xs ys (1, 1) = Some (Finite 1) /\ ComputeDistanceTo 2 xs ys (1, 1) = Some (Finite 1) /\
  beyond (combine xs ys) (-1, 1) /\
  number_of (fun e => exists z, on_segment (fst e) (snd e) z /\ on_segment (-1, 1) (1, 1) z) (edges (combine xs ys)) 1 /\
  ~ connected (polyline (combine xs ys)) (-1, 1) (1, 1).
Proof.
  intros xs ys. assert (C : closed (combine xs ys)) by (exists (0, 0), [(2, 0); (2, 2); (0, 2)]; reflexivity).
  assert (D : is_distance distance (polyline (combine xs ys)) (1, 1) 1).
  { split.
    - exists (0, 1). split.
      + exists (0, 2), (0, 0). split; [right; right; right; left; reflexivity|]. exists (1/2). split; [lra|]. cbn [fst snd]. f_equal; lra.
      + unfold distance. cbn [fst snd]. transitivity (sqrt 1); [f_equal; lra|apply sqrt_1].
    - intros q (v & w & I & (t & T & ->)). unfold distance. cbn [fst snd]. apply Rle_trans with (sqrt 1); [rewrite sqrt_1; lra|]. apply sqrt_le_1_alt.
      cbn in I. destruct I as [I|[I|[I|[I|[]]]]]; apply pair_equal_spec in I as [<- <-]; cbn [fst snd];
        match goal with |- 1 <= ?a ^ 2 + ?b ^ 2 => pose proof (pow2_ge_0 a); pose proof (pow2_ge_0 b);
          assert (a ^ 2 = 1 \/ b ^ 2 = 1) by (((left; ring) || (right; ring))) end; lra. }
  assert (NN : number_of (crosses_ray (1, 1)) (edges (combine xs ys)) 1).
  { cbn. apply num_no; [|apply num_no; [|apply num_no; [|apply num_yes; [|apply num_nil]]]].
    - cbn. lra.
    - cbn. intros [_ (q & (t & T & ->) & _ & X)]. cbn [fst snd] in X. lra.
    - cbn. lra.
    - cbn. split; [lra|]. exists (0, 1). split; [exists (1/2); split; [lra|]; cbn [fst snd]; f_equal; lra|]. cbn. lra. }
  assert (V : forall w, (0 < w)%nat -> ComputeDistanceTo w xs ys (1, 1) = Some (Finite 1)).
  { intros w W. destruct (C51_sign w xs ys (1, 1) W eq_refl ltac:(cbn; lia)) as (r & n & E & Hn & O & _).
    destruct (C51_distance w xs ys (1, 1) W eq_refl ltac:(cbn; lia)) as (r' & E' & D'). rewrite E in E'. injection E' as <-.
    rewrite E. do 2 f_equal. rewrite (number_unique _ _ _ Hn 1 NN) in O. specialize (O ltac:(exists 0%nat; reflexivity)).
    rewrite (Rabs_pos_eq r O) in D'. apply (is_distance_unique _ _ _ _ _ D' D). }
  split; [exact C|]. split; [apply V; lia|]. split; [apply V; lia|].
  assert (B : beyond (combine xs ys) (-1, 1)).
  { right. left. cbn. intros v H. repeat (destruct H as [<- |H]; [cbn; lra|]). contradiction. }
  split; [exact B|]. split.
  - cbn. apply num_no; [|apply num_no; [|apply num_no; [|apply num_yes; [|apply num_nil]]]]; cbn [fst snd].
    + intros (z & (t & T & ->) & (s & S & Q)). apply pair_equal_spec in Q as [_ Q]. cbn [fst snd] in Q. lra.
    + intros (z & (t & T & ->) & (s & S & Q)). apply pair_equal_spec in Q as [Q _]. cbn [fst snd] in Q. lra.
    + intros (z & (t & T & ->) & (s & S & Q)). apply pair_equal_spec in Q as [_ Q]. cbn [fst snd] in Q. lra.
    + exists (0, 1). split; exists (1/2); (split; [lra|]); cbn [fst snd]; f_equal; lra.
  - intros H. assert (H' : forall p q, connected (polyline (combine xs ys)) p q -> connected (polyline (combine xs ys)) q p).
    { intros p q. induction 1 as [p|p q r J _ IH]; [apply c_refl|].
      assert (J' : connected (polyline (combine xs ys)) q p).
      { apply (c_step _ q p p); [|apply c_refl]. destruct J as [J1 J2]. split; [destruct J1; [left|right]; congruence|].
        intros z Z. apply J2, segment_sym, Z. }
      clear - IH J'. induction IH as [r|r s q J _ IH]; [exact J'|]. apply (c_step _ r s p J (IH J')). }
    destruct (C51_exterior 8 xs ys (1, 1) (-1, 1) ltac:(lia) eq_refl ltac:(cbn; lia) C (H' _ _ H) B) as (r & E & N).
    rewrite (V 8%nat ltac:(lia)) in E. injection E as <-. lra.
Qed.
