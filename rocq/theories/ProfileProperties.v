(** C146: initial data from a one-dimensional profile. *)
From Coq Require Import List ZArith Reals Bool Sorted Lra Lia.
From Verif Require Import ProfileModel ProfileSpec ProfileProofs.
Import ListNotations.
Local Open Scope R_scope.

(** Every cell gets a value as soon as the profile is not empty; density, velocity and pressure lie between the smallest
    and the largest of the profile, so positive profiles give positive states and constant ones are kept. *)
Theorem C146_bounds : forall (profile : list (R * prim)) (problo dx : R) (alpha : Z -> Z -> R) (old : Z -> Z -> prim) (i j : Z),
  profile <> [] -> 0 < alpha i j ->
  exists v, InitializeCell profile problo dx alpha old i j = Some v /\
    forall (q : prim -> R) (lo hi : R), (q = density \/ q = velocity \/ q = pressure) ->
      (forall s, In s profile -> lo <= q (snd s) <= hi) -> lo <= q v <= hi.
Proof.
  intros profile problo dx alpha old i j Hne Ha. unfold InitializeCell. destruct (Rlt_dec 0 (alpha i j)); [|contradiction].
  destruct (value_some profile (LoNode problo dx i) (HiNode problo dx i) Hne) as (v & E). exists v. split; [exact E|].
  destruct (value_from _ _ _ _ E) as (part & _ & Hincl & Hav). intros q lo hi Hq H.
  apply (average_bounds part v q lo hi Hq Hav). intros s Hs. apply H, Hincl, Hs.
Qed.
Print Assumptions C146_bounds.

(** Density and pressure are positive. *)
Theorem C146_positive : forall (profile : list (R * prim)) (problo dx : R) (alpha : Z -> Z -> R) (old : Z -> Z -> prim) (i j : Z) (v : prim),
  (forall s, In s profile -> 0 < density (snd s) /\ 0 < pressure (snd s)) ->
  (0 < alpha i j -> InitializeCell profile problo dx alpha old i j = Some v -> 0 < density v /\ 0 < pressure v) /\
  (alpha i j <= 0 -> InitializeCell profile problo dx alpha old i j = Some (old i j)).
Proof.
  intros profile problo dx alpha old i j v H. unfold InitializeCell. destruct (Rlt_dec 0 (alpha i j)) as [Ha|Ha]; (split; [intros Ha'; try lra|intros Ha'; try lra]).
  2:{ reflexivity. }
  intros E. destruct (value_from _ _ _ _ E) as (part & Hne & Hincl & Hav).
  assert (M : forall q : prim -> R, (forall s, In s part -> 0 < q (snd s)) -> exists lo hi, 0 < lo /\ forall s, In s part -> lo <= q (snd s) <= hi).
  { intros q. clear - Hne. induction part as [|a r IH]; [congruence|]. intros Hq. destruct r as [|b r].
    - exists (q (snd a)), (q (snd a)). split; [apply Hq; now left|]. intros s [<-|[]]. lra.
    - destruct IH as (lo & hi & Hlo & HB); [discriminate|intros; apply Hq; now right|].
      exists (Rmin (q (snd a)) lo), (Rmax (q (snd a)) hi). split.
      + apply Rmin_glb_lt; [apply Hq; now left|exact Hlo].
      + pose proof (Rmin_l (q (snd a)) lo). pose proof (Rmin_r (q (snd a)) lo).
        pose proof (Rmax_l (q (snd a)) hi). pose proof (Rmax_r (q (snd a)) hi).
        intros s [<-|Hs]; [lra|]. specialize (HB s Hs). lra. }
  destruct (M density) as (lo & hi & Hlo & HB); [intros s Hs; apply H, Hincl, Hs|].
  destruct (M pressure) as (lo' & hi' & Hlo' & HB'); [intros s Hs; apply H, Hincl, Hs|].
  pose proof (average_bounds part v density lo hi (or_introl eq_refl) Hav HB).
  pose proof (average_bounds part v pressure lo' hi' (or_intror (or_intror eq_refl)) Hav HB'). lra.
Qed.
Print Assumptions C146_positive.

(** Full claim: the value of a cell is the mean of the samples in it. What the code does, for every ordered profile and
    cell, depends on the samples inside and to the right: at least two inside and one to the right, the mean of those inside
    except the first; at most one inside and one to the right, the first one to the right; none to the right, the last. *)
Theorem C146_value_partial : forall (profile : list (R * prim)) (problo dx : R) (alpha : Z -> Z -> R) (old : Z -> Z -> prim) (i j : Z),
  0 < dx -> ordered profile -> 0 < alpha i j ->
  exists before within after, split (problo + IZR i * dx) (problo + IZR (i + 1) * dx) profile before within after /\
  let value := InitializeCell profile problo dx alpha old i j in
  ((exists first rest s r, within = first :: rest /\ rest <> [] /\ after = s :: r /\
      exists v, value = Some v /\ is_average rest v) \/
   ((length within <= 1)%nat /\ exists s r, after = s :: r /\ value = Some (snd s)) \/
   (after = [] /\ exists front s, profile = front ++ [s] /\ value = Some (snd s)) \/
   (profile = [] /\ value = None)).
Proof.
  intros profile problo dx alpha old i j Hdx HO Hal. unfold InitializeCell. destruct (Rlt_dec 0 (alpha i j)); [|contradiction].
  assert (HX : problo + IZR i * dx < problo + IZR (i + 1) * dx) by (rewrite plus_IZR; lra).
  replace (LoNode problo dx i) with (problo + IZR i * dx) by reflexivity.
  replace (HiNode problo dx i) with (problo + IZR (i + 1) * dx) by (unfold HiNode; rewrite plus_IZR; ring).
  remember (problo + IZR i * dx) as xlo. remember (problo + IZR (i + 1) * dx) as xhi. cbv zeta.
  destruct (split_exists profile xlo xhi HX HO) as (b & w & a & HS). exists b, w, a. split; [exact HS|].
  destruct a as [|s r'].
  - right. right. pose proof (cell_past xlo xhi profile b w [] HX HS eq_refl) as E.
    destruct profile as [|s0 p0] using rev_ind; [right; auto|]. left. split; [reflexivity|]. exists p0, s0. split; [reflexivity|].
    rewrite E, app_length. cbn. rewrite Nat.add_1_r, map_app, nth_error_app2; rewrite map_length; [|lia]. rewrite Nat.sub_diag. reflexivity.
  - destruct w as [|f w].
    + right. left. split; [cbn; lia|]. exists s, r'. split; [reflexivity|]. eapply cell_few; eauto; cbn; lia.
    + destruct w as [|g w].
      * right. left. split; [cbn; lia|]. exists s, r'. split; [reflexivity|]. eapply cell_few; eauto; cbn; lia.
      * left. exists f, (g :: w), s, r'. split; [reflexivity|]. split; [discriminate|]. split; [reflexivity|].
        eapply cell_many; eauto. discriminate.
Qed.
Print Assumptions C146_value_partial.

(** Five samples at 0, 1, 2, 3, 4; the cell [0, 3) gets the mean of the second and third. *)
Definition ex_profile : list (R * prim) :=
  [(0, mkPrim 1 0 1); (1, mkPrim 2 0 1); (2, mkPrim 4 0 1); (3, mkPrim 8 0 1); (4, mkPrim 16 0 1)].
Example C146_example : ordered ex_profile /\ cell_value ex_profile 0 3 = Some (mkPrim 3 0 1) /\
  InitializeCell ex_profile 0 3 (fun _ _ => 1) (fun _ _ => mkPrim 0 0 0) 0 5 = Some (mkPrim 3 0 1).
Proof.
  assert (C : forall a b : R, a = 0 -> b = 3 -> cell_value ex_profile a b = Some (mkPrim 3 0 1)).
  { intros a b -> ->. unfold cell_value. cbn.
    repeat match goal with |- context[Rlt_dec ?a ?b] => destruct (Rlt_dec a b); [try (exfalso; lra)|try (exfalso; lra)] end.
    cbn. f_equal. unfold mean_of; cbn. f_equal; field. }
  split; [|split].
  - repeat constructor; cbn; lra.
  - now apply C.
  - unfold InitializeCell. destruct (Rlt_dec 0 1); [|lra]. apply C; unfold LoNode, HiNode; lra.
Qed.

(** Refuted: for every three different values there are a profile and a cell with exactly one sample whose value is not
    used; a cell with two samples gets only the second; a cell that reaches the end gets only the last one. *)
Theorem C146_mean_refuted : forall a b c : prim,
  let profile := [(0, a); (1, b); (2, c)] in
  ordered profile /\
  (split 0 (1/2) profile [] [(0, a)] [(1, b); (2, c)] /\ cell_value profile 0 (1/2) = Some b) /\
  (split 0 (3/2) profile [] [(0, a); (1, b)] [(2, c)] /\ exists v, cell_value profile 0 (3/2) = Some v /\ is_average [(1, b)] v) /\
  (split 0 3 profile [] profile [] /\ cell_value profile 0 3 = Some c).
Proof.
  intros a b c profile. unfold profile.
  assert (S1 : split 0 (1/2) [(0, a); (1, b); (2, c)] [] [(0, a)] [(1, b); (2, c)]) by (constructor; [reflexivity| | |]; repeat constructor; cbn; lra).
  assert (S2 : split 0 (3/2) [(0, a); (1, b); (2, c)] [] [(0, a); (1, b)] [(2, c)]) by (constructor; [reflexivity| | |]; repeat constructor; cbn; lra).
  assert (S3 : split 0 3 [(0, a); (1, b); (2, c)] [] [(0, a); (1, b); (2, c)] []) by (constructor; [reflexivity| | |]; repeat constructor; cbn; lra).
  split; [repeat constructor; cbn; lra|]. split; [split; [exact S1|]|split; [split; [exact S2|]|split; [exact S3|]]].
  - rewrite (cell_few 0 (1/2) _ _ _ _ ltac:(lra) S1 (1, b) [(2, c)]); [reflexivity|reflexivity|cbn; lia].
  - eapply (cell_many 0 (3/2) _ _ _ _ ltac:(lra) S2 (2, c) []); [reflexivity|reflexivity|discriminate].
  - rewrite (cell_past 0 3 _ _ _ _ ltac:(lra) S3 eq_refl). reflexivity.
Qed.
Print Assumptions C146_mean_refuted.

(** The samples are the rows of the file, if it has six columns: position, density, velocity and pressure from columns
    0, 1, 2 and 5. *)
Theorem C146_file_partial : forall (file : nat -> R) (rows i : nat), (i < rows)%nat ->
  length (samples file rows 6) = rows /\
  nth_error (samples file rows 6) i =
    Some (file (6 * i)%nat, mkPrim (file (6 * i + 1)%nat) (file (6 * i + 2)%nat) (file (6 * i + 5)%nat)).
Proof.
  intros file rows i Hi. unfold samples. assert (En : n_rows rows 6 = rows) by (unfold n_rows; apply Nat.div_mul; lia). rewrite En.
  split; [rewrite map_length; apply seq_length|]. rewrite nth_error_map.
  assert (nth_error (seq 0 rows) i = Some i) as ->.
  { rewrite (nth_error_nth' _ 0%nat) by (rewrite seq_length; exact Hi). now rewrite seq_nth. }
  cbn [option_map]. rewrite !prims_column by exact Hi. rewrite (Nat.mul_comm i 6), Nat.add_0_r. reflexivity.
Qed.
Print Assumptions C146_file_partial.
Example C146_example_file : map fst (samples (fun k => INR k) 2 6) = [INR 0; INR 6].
Proof. reflexivity. Qed.
(** A file with twelve columns is accepted: positions and values are taken from other columns. *)
Theorem C146_columns_refuted : forall file : nat -> R,
  map fst (samples file 1 12) = [file 0%nat; file 1%nat] /\ map (fun s => density (snd s)) (samples file 1 12) = [file 2%nat; file 3%nat].
Proof. intros file. split; reflexivity. Qed.
Print Assumptions C146_columns_refuted.
