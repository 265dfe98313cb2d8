(** C166: copies of a patch level. *)
From Coq Require Import List Reals ZArith Lia.
From Verif Require Import CopyModel CopySpec.
Import ListNotations.

(** The full claim is that the copy of every level agrees with it. It holds for levels of all data descriptions and contents without values on faces or of a dimension other than two,
    whatever is in the new memory. What is missing are planes with values on faces, see the next theorem. *)
Theorem C166_copy_partial : forall number tp c b o n_state n_node n_face dimension arena_ contents junk, n_face = 0%nat \/ dimension <> 2%nat ->
  let l := MakeLevel number tp c b o n_state n_node n_face dimension arena_ contents in
  exists copy, CopyLevel junk l = Some copy /\ same_level l copy.
Proof.
  intros number tp c b o n_state n_node n_face dimension arena_ contents junk H l.
  unfold l, MakeLevel, CopyLevel. cbn [level_number time_point cycles box_array mapping data nodes face0 face1 face2].
  destruct n_face as [|nf].
  - eexists. split; [reflexivity|]. unfold same_level. cbn [level_number time_point cycles box_array mapping data nodes face0 face1 face2].
    destruct n_state, n_node, dimension as [|[|[|[|?]]]]; cbn; repeat split.
  - destruct H as [H|H]; [discriminate|]. destruct dimension as [|[|[|[|?]]]]; try (exfalso; apply H; reflexivity);
      (eexists; split; [reflexivity|]); unfold same_level; cbn [level_number time_point cycles box_array mapping data nodes face0 face1 face2]; destruct n_state, n_node; cbn; repeat split.
Qed.
Print Assumptions C166_copy_partial.

(** A level of a plane with values on faces cannot be copied: the copy of the faces of the second axis asks the faces of the third axis, which do not exist, for their arena. *)
Theorem C166_copy_refuted : forall number tp c b o n_state n_node n_face arena_ contents junk, (0 < n_face)%nat ->
  CopyLevel junk (MakeLevel number tp c b o n_state n_node n_face 2 arena_ contents) = None.
Proof. intros number tp c b o n_state n_node [|nf] arena_ contents junk H; [lia|reflexivity]. Qed.
Print Assumptions C166_copy_refuted.

(** A copy of a copy agrees with the original as well: levels are copied again and again when time steps are repeated. *)
Theorem C166_again_partial : forall number tp c b o n_state n_node n_face dimension arena_ contents junk junk', n_face = 0%nat \/ dimension <> 2%nat ->
  let l := MakeLevel number tp c b o n_state n_node n_face dimension arena_ contents in
  exists copy copy', CopyLevel junk l = Some copy /\ CopyLevel junk' copy = Some copy' /\ same_level l copy'.
Proof.
  intros number tp c b o n_state n_node n_face dimension arena_ contents junk junk' H l. unfold l. clear l.
  destruct n_face as [|nf]; [|destruct H as [H|H]; [discriminate|]]; destruct dimension as [|[|[|[|?]]]]; try (exfalso; apply H; reflexivity); clear H;
    (eexists; eexists; split; [reflexivity|]; split; [reflexivity|]); unfold same_level; destruct n_state, n_node; cbn; repeat split.
Qed.
Print Assumptions C166_again_partial.

(** A level in space with two components in cells and one on faces, and one in a plane *)
Example C166_example :
  let contents := fun slot i => INR (10 * slot + i) in
  let l := MakeLevel 1 (1 / 2) 7 [3; 4] [0; 1] 2 0 1 3 5 contents in
  (exists copy, CopyLevel (fun _ => 0%R) l = Some copy /\ match face1 copy with Some f => valid f 2 = INR 32 | None => False end /\ cycles copy = 7%Z) /\
  CopyLevel (fun _ => 0%R) (MakeLevel 1 (1 / 2) 7 [3; 4] [0; 1] 2 0 1 2 5 contents) = None.
Proof. split; [|reflexivity]. eexists. split; [reflexivity|]. split; reflexivity. Qed.
