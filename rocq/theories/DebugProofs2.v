(** Proofs for C150. *)
From Coq Require Import String List Arith Bool Lia.
From Verif Require Import DebugModel DebugSpec.
Import ListNotations.

Section fields.
Context {L D G : Type} (L_dec : forall x y : L, {x = y} + {x <> y}).
Notation rec := (@hier L D * list string * G)%type.
Definition r_h (r : rec) : @hier L D := fst (fst r).
Definition r_names (r : rec) : list string := snd (fst r).
Definition r_geom (r : rec) : G := snd r.
Definition has_layout (a : L) (r : rec) : bool := if L_dec (h_layout (r_h r)) a then true else false.

Lemma index_filter (P : rec -> bool) : forall (l : list rec),
  map (nth_error l) (filter (fun i => match nth_error l i with Some r => P r | None => false end) (seq 0 (length l))) = map Some (filter P l).
Proof.
  induction l as [|r l IH]; [reflexivity|]. cbn [length seq filter nth_error]. rewrite <- seq_shift.
  assert (E : forall s, map (nth_error (r :: l)) (filter (fun i => match nth_error (r :: l) i with Some r => P r | None => false end) (map S s)) =
    map (nth_error l) (filter (fun i => match nth_error l i with Some r => P r | None => false end) s)).
  { induction s as [|i s IHs]; cbn; [reflexivity|]. destruct (nth_error l i) as [r'|]; [|exact IHs]. destruct (P r'); cbn; [f_equal|]; exact IHs. }
  destruct (P r); cbn [map nth_error]; rewrite E, IH; reflexivity.
Qed.
Definition idx (l : list rec) (a : L) (i : nat) : bool := match nth_error l i with Some r => has_layout a r | None => false end.
Lemma equal_idx l i r j : nth_error l i = Some r -> equal_to L_dec (map (fun r => h_layout (r_h r)) l) i j = idx l (h_layout (r_h r)) j.
Proof.
  intros E. unfold equal_to, idx, has_layout. rewrite !nth_error_map, E. cbn. destruct (nth_error l j) as [r'|]; cbn; [|reflexivity].
  destruct (L_dec (h_layout (r_h r)) (h_layout (r_h r'))), (L_dec (h_layout (r_h r')) (h_layout (r_h r))); congruence.
Qed.
Lemma filter_filter {X} (p q : X -> bool) l : filter p (filter q l) = filter (fun x => q x && p x) l.
Proof. induction l as [|x l IH]; cbn; [reflexivity|]. destruct (q x); cbn; [destruct (p x); rewrite IH|rewrite IH]; reflexivity. Qed.
Lemma filter_ext' {X} (p q : X -> bool) l : (forall x, In x l -> p x = q x) -> filter p l = filter q l.
Proof. induction l as [|x l IH]; intros H; cbn; [reflexivity|]. rewrite (H x (or_introl eq_refl)), IH; [reflexivity|]. intros y Hy. apply H. now right. Qed.
Lemma filter_len {X} (p : X -> bool) l : (length (filter p l) <= length l)%nat.
Proof. induction l as [|x l IH]; cbn; [lia|]. destruct (p x); cbn; lia. Qed.

Lemma partition_as_filter {X} (p : X -> bool) l : partition p l = (filter p l, filter (fun x => negb (p x)) l).
Proof. induction l as [|x l IH]; cbn; [reflexivity|]. rewrite IH. destruct (p x); reflexivity. Qed.
Lemma parts_spec l : forall f sel, (length sel <= f)%nat -> (forall i, In i sel -> nth_error l i <> None) ->
  exists layouts, parts L_dec f (map (fun r => h_layout (r_h r)) l) sel = map (fun a => filter (idx l a) sel) layouts /\ NoDup layouts /\
    (forall a, In a layouts <-> exists i, In i sel /\ idx l a i = true).
Proof.
  induction f as [|f IH]; intros [|i sel] Hf Hv; cbn in Hf; try lia.
  - exists []. split; [reflexivity|]. split; [constructor|]. intros a. split; [intros []|intros (i & [] & _)].
  - exists []. split; [reflexivity|]. split; [constructor|]. intros a. split; [intros []|intros (i & [] & _)].
  - destruct (nth_error l i) as [r|] eqn:Er; [|exfalso; apply (Hv i); [now left|exact Er]]. set (a0 := h_layout (r_h r)).
    assert (Ei : idx l a0 i = true) by (unfold idx, has_layout; rewrite Er; destruct (L_dec (h_layout (r_h r)) a0); [reflexivity|contradiction]).
    cbn [parts]. rewrite partition_as_filter.
    set (q := fun j => negb (equal_to L_dec (map (fun r => h_layout (r_h r)) l) i j)).
    assert (Eq : forall j, q j = negb (idx l a0 j)) by (intros j; unfold q; now rewrite (equal_idx l i r j Er)).
    assert (Hb : filter q (i :: sel) = filter q sel) by (cbn [filter]; rewrite Eq, Ei; reflexivity).
    rewrite Hb. destruct (IH (filter q sel)) as (ls & E1 & E2 & E3).
    + pose proof (filter_len q sel). lia.
    + intros j Hj. apply Hv. right. apply filter_In in Hj. tauto.
    + exists (a0 :: ls). cbn [map].
      assert (NA : forall a, In a ls -> a <> a0).
      { intros a Ha. apply E3 in Ha. destruct Ha as (j & Hj & H). intros ->. apply filter_In in Hj. rewrite Eq, H in Hj. destruct Hj; discriminate. }
      split; [|split].
      * f_equal; [apply filter_ext'; intros j _; apply (equal_idx l i r j Er)|]. rewrite E1. apply map_ext_in. intros a Ha. rewrite filter_filter.
        cbn [filter]. replace (idx l a i) with false.
        2:{ symmetry. unfold idx, has_layout. rewrite Er. destruct (L_dec (h_layout (r_h r)) a) as [Q|Q]; [exfalso; apply (NA a Ha); now rewrite <- Q|reflexivity]. }
        apply filter_ext'. intros j _. rewrite Eq. unfold idx, has_layout. destruct (nth_error l j) as [r'|]; [|reflexivity].
        destruct (L_dec (h_layout (r_h r')) a0) as [Q|Q]; cbn; [|reflexivity].
        destruct (L_dec (h_layout (r_h r')) a) as [Q'|Q']; [exfalso; apply (NA a Ha); congruence|reflexivity].
      * constructor; [|exact E2]. intros Ha. exact (NA _ Ha eq_refl).
      * intros a. cbn [In]. rewrite E3. split.
        -- intros [<-|(j & Hj & H)]; [exists i; auto|]. apply filter_In in Hj. exists j. tauto.
        -- intros (j & Hj & H). destruct (L_dec a0 a) as [Q|Q]; [now left|]. right. exists j. split; [|exact H].
           assert (Nj : idx l a0 j = false).
           { unfold idx, has_layout in *. destruct (nth_error l j) as [r'|]; [|reflexivity].
             destruct (L_dec (h_layout (r_h r')) a0), (L_dec (h_layout (r_h r')) a); congruence. }
           destruct Hj as [<-|Hj]; [congruence|]. apply filter_In. split; [exact Hj|]. now rewrite Eq, Nj.
Qed.

Lemma gather_map {X} loc (F : rec -> X) : forall l, gather loc (map F l) (map r_h l) = map F (filter (fun r => at_location loc (r_h r)) l).
Proof. induction l as [|r l IH]; cbn; [reflexivity|]. destruct (at_location loc (r_h r)); cbn; now rewrite IH. Qed.
Lemma filter_map_h loc : forall l, filter (at_location loc) (map r_h l) = map r_h (filter (fun r => at_location loc (r_h r)) l).
Proof. induction l as [|r l IH]; cbn; [reflexivity|]. destruct (at_location loc (r_h r)); cbn; now rewrite IH. Qed.
Lemma select_map {X} (F : rec -> list X) l p : select (map F l) p = flat_map (fun o => match o with Some r => F r | None => [] end) (map (nth_error l) p).
Proof.
  unfold select. induction p as [|i p IH]; cbn; [reflexivity|]. rewrite IH. f_equal. clear. revert i. induction l as [|r l IH]; intros [|i]; cbn; auto.
Qed.
Lemma flat_some {X} (F : rec -> list X) l : flat_map (fun o => match o with Some r => F r | None => [] end) (map Some l) = flat_map F l.
Proof. induction l; cbn; congruence. Qed.

Lemma gather_fields (recs : list rec) (loc : nat) :
  let s := mkSnapshot (map r_h recs) (map r_names recs) (map r_geom recs) in
  let group a := filter (fun r => at_location loc (r_h r) && has_layout a r) recs in
  exists layouts, NoDup layouts /\ (forall a, In a layouts <-> exists r, In r (group a)) /\
    GatherFields L_dec s loc = map (fun a => (Some a, flat_map (fun r => h_comps (r_h r)) (group a), flat_map r_names (group a), option_map r_geom (hd_error (group a)))) layouts.
Proof.
  cbv zeta. set (l := filter (fun r => at_location loc (r_h r)) recs).
  assert (Gl : forall a, filter (fun r => at_location loc (r_h r) && has_layout a r) recs = filter (has_layout a) l) by (intros a; unfold l; now rewrite filter_filter).
  destruct (parts_spec l (length l) (seq 0 (length l))) as (ls & E1 & E2 & E3).
  - rewrite seq_length. lia.
  - intros i Hi. apply in_seq in Hi. apply nth_error_Some. lia.
  - exists ls. split; [exact E2|].
    assert (M : forall a, map (nth_error l) (filter (idx l a) (seq 0 (length l))) = map Some (filter (has_layout a) l)) by (intros a; apply index_filter).
    assert (HI : forall a, In a ls <-> exists r, In r (filter (has_layout a) l)).
    { intros a. rewrite E3. split.
      - intros (i & Hi & H). unfold idx in H. destruct (nth_error l i) as [r|] eqn:Er; [|discriminate]. exists r. apply filter_In. split; [now apply nth_error_In in Er|exact H].
      - intros (r & Hr). apply filter_In in Hr. destruct Hr as [Hr H]. apply In_nth_error in Hr. destruct Hr as [i Er]. exists i. split.
        + apply in_seq. assert (i < length l)%nat by (apply nth_error_Some; congruence). lia.
        + unfold idx. now rewrite Er. }
    split; [intros a; rewrite Gl; apply HI|].
    unfold GatherFields. cbn [saved_hierarchies names_per_hierarchy saved_geometries].
    rewrite !gather_map, filter_map_h. fold l. rewrite !map_map. unfold Partitions. rewrite map_length, E1, map_map. apply map_ext_in. intros a Ha.
    rewrite Gl, !select_map, M, !flat_some. apply HI in Ha. destruct Ha as [r0 Hr0].
    specialize (M a). destruct (filter (idx l a) (seq 0 (length l))) as [|i p]; destruct (filter (has_layout a) l) as [|r g] eqn:Eg; cbn in M; try discriminate; [destruct Hr0|].
    injection M as Mi _. cbn [hd hd_error option_map]. rewrite !nth_error_map, Mi. cbn. repeat f_equal.
    assert (In r (filter (has_layout a) l)) as Q by (rewrite Eg; now left). apply filter_In in Q. destruct Q as [_ Q]. unfold has_layout in Q.
    destruct (L_dec (h_layout (r_h r)) a); congruence.
Qed.

(** Saving *)
Definition stored (c : @hier L D * list string * G * nat) : rec :=
  let '(h, names, g, first) := c in (mkHier (h_loc h) (h_layout h) (firstn (length names) (skipn first (h_comps h))), names, g).
Definition enough (c : @hier L D * list string * G * nat) : Prop := let '(h, names, g, first) := c in (first + length names <= length (h_comps h))%nat.
Lemma save_all_spec : forall calls pre, Forall enough calls ->
  save_all (mkSnapshot (map r_h pre) (map r_names pre) (map r_geom pre)) calls =
  Some (let recs := pre ++ map stored calls in mkSnapshot (map r_h recs) (map r_names recs) (map r_geom recs)).
Proof.
  induction calls as [|[[[h names] g] first] r IH]; intros pre HF; cbn [save_all map].
  - now rewrite app_nil_r.
  - apply Forall_cons_iff in HF. destruct HF as [H HF]. cbn in H. unfold SaveData. cbn [saved_hierarchies names_per_hierarchy saved_geometries].
    replace (first + length names <=? length (h_comps h))%nat with true by (symmetry; now apply Nat.leb_le).
    specialize (IH (pre ++ [stored (h, names, g, first)]) HF). rewrite !map_app in IH. cbn [map] in IH. unfold stored at 1 2 3 in IH. unfold r_h at 2, r_names at 2, r_geom at 2 in IH. cbn [fst snd] in IH.
    rewrite IH. cbv zeta. now rewrite <- app_assoc.
Qed.
End fields.
