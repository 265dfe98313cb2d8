(** C150, C151: fields saved for debugging and the names under which they are written. *)
From Coq Require Import Reals String List Arith Bool Lia Lra.
From Verif Require Import DebugModel DebugSpec DebugProofs DebugProofs2.
Import ListNotations.

(** C150: after any sequence of fields has been saved, the fields at a location are gathered in one group per layout, which
    consists of the components and names of all fields with that layout in the order in which they were saved. *)
Theorem C150_gather : forall (L D G : Type) (L_dec : forall x y : L, {x = y} + {x <> y})
    (calls : list (@hier L D * list string * G * nat)) (loc : nat),
  Forall (fun c => let '(h, names, g, first) := c in (first + length names <= length (h_comps h))%nat) calls ->
  let group (a : L) := filter (fun c => let '(h, names, g, first) := c in (h_loc h =? loc)%nat && if L_dec (h_layout h) a then true else false) calls in
  exists s layouts, save_all empty_snapshot calls = Some s /\ NoDup layouts /\ (forall a, In a layouts <-> group a <> []) /\
    GatherFields L_dec s loc =
    map (fun a => (Some a, flat_map (fun c => let '(h, names, g, first) := c in kept h names first) (group a),
                   flat_map (fun c => let '(h, names, g, first) := c in names) (group a),
                   option_map (fun c => let '(h, names, g, first) := c in g) (hd_error (group a)))) layouts.
Proof.
  intros L D G L_dec calls loc HF group.
  pose proof (save_all_spec calls ([] : list (hier * list string * G)) HF) as E. cbn [app] in E. cbv zeta in E.
  destruct (gather_fields L_dec (map stored calls) loc) as (ls & H1 & H2 & H3). cbv zeta in H2, H3.
  assert (Eg : forall a, filter (fun r => at_location loc (r_h r) && has_layout L_dec a r) (map stored calls) = map stored (group a)).
  { intros a. unfold group. clear. induction calls as [|[[[h n] g] f] r IH]; cbn; [reflexivity|]. rewrite IH. unfold at_location, has_layout, r_h. cbn.
    destruct ((h_loc h =? loc)%nat && (if L_dec (h_layout h) a then true else false)); reflexivity. }
  exists (mkSnapshot (map r_h (map stored calls)) (map r_names (map stored calls)) (map r_geom (map stored calls))), ls. split; [exact E|]. split; [exact H1|]. split.
  - intros a. rewrite H2, Eg. destruct (group a) as [|c r]; cbn; [|split; [discriminate|eauto]]. split; [intros (r & [])|contradiction].
  - rewrite H3. apply map_ext. intros a. rewrite !Eg. clear. induction (group a) as [|[[[h n] g] f] r IH]; cbn; [reflexivity|].
    apply pair_equal_spec in IH. destruct IH as [IH _]. apply pair_equal_spec in IH. destruct IH as [IH1 IH2]. apply pair_equal_spec in IH1. destruct IH1 as [_ IH1].
    rewrite IH1, IH2. reflexivity.
Qed.
Print Assumptions C150_gather.
(** Four fields, two layouts (given by numbers), one of them at another location. *)
Example C150_example :
  let calls := [(mkHier 0 7 [10; 11], ["p"; "q"], true, 0); (mkHier 0 8 [20], ["r"], false, 0); (mkHier 1 7 [30], ["f"], true, 0); (mkHier 0 7 [40; 41; 42], ["u"], false, 2)]%string in
  match save_all empty_snapshot calls with
  | Some s => GatherFields Nat.eq_dec s 0 = [(Some 7, [10; 11; 42], ["p"; "q"; "u"]%string, Some true); (Some 8, [20], ["r"]%string, Some false)]
  | None => False end.
Proof. reflexivity. Qed.
(** The average of a face field in a cell lies between the values of its faces. *)
Theorem C150_face_average : forall (faces : nat -> R) (cell : nat) (lo hi : R), (lo <= faces cell <= hi)%R -> (lo <= faces (S cell) <= hi)%R ->
  (lo <= AverageFaceToCell faces cell <= hi)%R /\ (AverageFaceToCell faces cell - faces cell = faces (S cell) - AverageFaceToCell faces cell)%R.
Proof. intros. unfold AverageFaceToCell. lra. Qed.
Print Assumptions C150_face_average.
Example C150_example_average : AverageFaceToCell INR 1 = (3 / 2)%R.
Proof. unfold AverageFaceToCell. cbn. lra. Qed.

(** C151. Full claim: afterwards all names are different. They are if no name looks like a numbered version of a name that
    occurs more than once: each of those gets its number appended, the others are left alone. *)
Theorem C151_unique_partial : forall names : list (list string),
  (forall n k, 2 <= occurrences (concat names) n -> ~ In (n ++ "_" ++ decimal k)%string (concat names)) ->
  made_unique (concat names) (concat (MakeUniqueComponentNames names)) /\ NoDup (concat (MakeUniqueComponentNames names)) /\
  map (@length _) (MakeUniqueComponentNames names) = map (@length _) names.
Proof.
  intros names H. pose proof (unique_ok names H) as U. split; [exact U|]. split; [exact (made_unique_NoDup _ _ H U)|].
  exact (proj2 (unique_all_flat _ names eq_refl)).
Qed.
Print Assumptions C151_unique_partial.
Example C151_example : MakeUniqueComponentNames [["p"; "q"; "p"]; ["r"; "p"]; ["q"]]%string = [["p_0"; "q_0"; "p_1"]; ["r"; "p_2"]; ["q_1"]]%string /\
  (forall n k, 2 <= occurrences ["p"; "q"; "p"; "r"; "p"; "q"]%string n -> ~ In (n ++ "_" ++ decimal k)%string ["p"; "q"; "p"; "r"; "p"; "q"]%string).
Proof.
  split; [reflexivity|]. intros n k _ H.
  assert (Hl : String.length (n ++ "_" ++ decimal k) = 1) by (destruct H as [H|[H|[H|[H|[H|[H|[]]]]]]]; rewrite <- H; reflexivity).
  rewrite append_length in Hl. cbn in Hl. destruct n; [|cbn in Hl; lia]. cbn in H. destruct H as [H|[H|[H|[H|[H|[H|[]]]]]]]; discriminate.
Qed.
(** Refuted: numbered names may coincide with names that were given, in front of them or behind them. *)
Theorem C151_unique_refuted : forall n : string,
  let n0 := (n ++ "_" ++ decimal 0)%string in let n1 := (n ++ "_" ++ decimal 1)%string in
  MakeUniqueComponentNames [[n; n; n0]] = [[n0; n1; n0]] /\ MakeUniqueComponentNames [[n0]; [n; n]] = [[n0]; [n0; n1]].
Proof.
  intros n n0 n1. change n0 with (numbered n 0). change n1 with (numbered n 1). clear n0 n1.
  assert (E : forall k, String.eqb (numbered n k) n = false) by (intros k; apply String.eqb_neq; exact (numbered_other n k)).
  assert (E' : forall k, String.eqb n (numbered n k) = false) by (intros k; rewrite String.eqb_sym; apply E).
  assert (E01 : String.eqb (numbered n 0) (numbered n 1) = false) by (apply String.eqb_neq; intros H; apply (numbered_same n) in H; discriminate).
  pose proof E01 as E10. rewrite String.eqb_sym in E10.
  unfold MakeUniqueComponentNames. cbn [length unique_all unique_row].
  split; repeat (unfold unique_step; cbn [renumber renumber_all unique_row unique_all length]; rewrite ?String.eqb_refl, ?E, ?E', ?E01, ?E10); reflexivity.
Qed.
Print Assumptions C151_unique_refuted.

(** The names of the averages are different if the names are, *)
Theorem C151_averages : forall (locations : list (option bool)) (names : list (list string)), NoDup (concat names) -> NoDup (concat (averaged locations names)).
Proof.
  assert (I : forall b c n m, averaged_name b n = averaged_name c m -> n = m).
  { unfold averaged_name. intros b c n m H.
    assert (Ln : String.length n = String.length m) by (apply (f_equal String.length) in H; rewrite !append_length in H; destruct b, c; cbn in H; lia).
    revert m H Ln. induction n as [|x n IH]; intros [|y m] H Ln; cbn in *; try discriminate; [reflexivity|]. injection H as -> H. injection Ln as Ln. now rewrite (IH m H Ln). }
  assert (K : forall ls names x, In x (concat (averaged ls names)) -> exists b n, In n (concat names) /\ x = averaged_name b n).
  { induction ls as [|[b|] ls IH]; intros [|h hs] x; cbn; try tauto.
    - intros H. apply in_app_or in H. destruct H as [H|H].
      + apply in_map_iff in H. destruct H as (n & <- & H). exists b, n. split; [apply in_or_app; now left|reflexivity].
      + destruct (IH _ _ H) as (c & n & Hn & ->). exists c, n. split; [apply in_or_app; now right|reflexivity].
    - intros H. destruct (IH _ _ H) as (c & n & Hn & ->). exists c, n. split; [apply in_or_app; now right|reflexivity]. }
  induction locations as [|[b|] ls IH]; intros [|h hs] H; cbn; try constructor; cbn in H.
  - assert (Hh : NoDup h) by (clear - H; induction h as [|x h IH]; [constructor|]; cbn in H; apply NoDup_cons_iff in H; destruct H as [H1 H2]; constructor; [intros Q; apply H1, in_or_app; now left|now apply IH]).
    assert (Hs : NoDup (concat hs)) by (clear - H; induction h as [|x h IH]; [exact H|]; cbn in H; apply NoDup_cons_iff in H; now apply IH).
    assert (Hd : forall x, In x h -> ~ In x (concat hs)).
    { clear - H. induction h as [|y h IH]; intros x Hx; [destruct Hx|]. cbn in H. apply NoDup_cons_iff in H. destruct H as [H1 H2]. destruct Hx as [<-|Hx]; [intros Q; apply H1, in_or_app; now right|now apply IH]. }
    specialize (IH hs Hs). clear H Hs. induction h as [|x h IHh]; [exact IH|]. cbn. apply NoDup_cons_iff in Hh. destruct Hh as [Hx Hh]. constructor.
    + intros Q. apply in_app_or in Q. destruct Q as [Q|Q].
      * apply in_map_iff in Q. destruct Q as (n & E & Hn). apply I in E. congruence.
      * apply K in Q. destruct Q as (c & n & Hn & E). apply I in E. subst n. exact (Hd x (or_introl eq_refl) Hn).
    + apply IHh; [exact Hh|]. intros y Hy. apply Hd. now right.
  - apply IH. clear - H. induction h as [|x h IHh]; [exact H|]. cbn in H. apply NoDup_cons_iff in H. now apply IHh.
Qed.
Print Assumptions C151_averages.
Example C151_example_averages : averaged [None; Some true; Some false] [["p"]; ["q"]; ["r"; "s"]]%string = [["q_nd2cellavg"]; ["r_fc2cellavg"; "s_fc2cellavg"]]%string.
Proof. reflexivity. Qed.
(** but they may coincide with the name of a field on cells, because they are added after the names have been made unique. *)
Theorem C151_averages_refuted : forall n : string, let a := (n ++ "_nd2cellavg")%string in
  flush_names [None; Some true] [[a]; [n]] = [[a]; [n]; [a]].
Proof.
  intros n a. assert (E : String.eqb n a = false).
  { apply String.eqb_neq. intros H. apply (f_equal String.length) in H. unfold a in H. rewrite append_length in H. cbn in H. lia. }
  unfold flush_names, MakeUniqueComponentNames. cbn [length unique_all unique_row]. unfold unique_step. cbn [renumber renumber_all]. rewrite E. reflexivity.
Qed.
Print Assumptions C151_averages_refuted.

(** Adding a snapshot ends, and its directory differs from those of all other snapshots. *)
Theorem C151_directory : forall (dirs : list string) (base : string),
  exists others d, AddSnapshot dirs base = Some (others ++ [d]) /\ length others = length dirs /\ ~ In d others.
Proof. exact add_total. Qed.
Print Assumptions C151_directory.
(** Full claim: all directories are different. They are if none of the previous ones is a numbered version of the new one. *)
Theorem C151_directory_partial : forall (dirs : list string) (base : string),
  base <> EmptyString -> NoDup dirs -> (forall k, ~ In (base ++ "-" ++ decimal k)%string dirs) ->
  exists dirs', AddSnapshot dirs base = Some dirs' /\ NoDup dirs' /\
    dirs' = if in_dec string_dec base dirs
            then map (fun d => if string_dec d base then (base ++ "-" ++ decimal 0)%string else d) dirs ++ [(base ++ "-" ++ decimal 1)%string]
            else dirs ++ [base].
Proof. exact add_simple. Qed.
Print Assumptions C151_directory_partial.
Example C151_example_directory : AddSnapshot ["pre"; "post"]%string "pre" = Some ["pre-0"; "post"; "pre-1"]%string.
Proof. reflexivity. Qed.
(** Refuted: the fourth snapshot of the same name gives two snapshots the same directory. *)
Theorem C151_directory_refuted :
  AddSnapshot [] "pre" = Some ["pre"]%string /\ AddSnapshot ["pre"]%string "pre" = Some ["pre-0"; "pre-1"]%string /\
  AddSnapshot ["pre-0"; "pre-1"]%string "pre" = Some ["pre-0"; "pre-1"; "pre"]%string /\
  AddSnapshot ["pre-0"; "pre-1"; "pre"]%string "pre" = Some ["pre-0"; "pre-1"; "pre-0"; "pre-2"]%string.
Proof. repeat split. Qed.
Print Assumptions C151_directory_refuted.
