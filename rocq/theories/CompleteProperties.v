(** C163: completion of conservative states on patches. *)
From Coq Require Import List Arith Lia.
From Verif Require Import CompleteModel CompleteSpec CompleteProofs.
Import ListNotations.

(** With vectors. For every width, all equations whose completion of a state depends on the conservative state only, all numbers of rows of any lengths and everything left in the arrays
    of the object by earlier calls: no access is out of bounds, each state is completed and nothing else is written. *)
Theorem C163_simd : forall (A B : Type) w (lane : B -> A -> B) f rows arrays, (0 < w)%nat -> (forall b a, lane b a = f a) -> length (fst arrays) = w -> length (snd arrays) = w ->
  (forall cons_row complete_row, In (cons_row, complete_row) rows -> (length cons_row <= length complete_row)%nat) ->
  exists arrays', CompleteSimd w lane rows arrays = Some (map (completed f) rows, arrays') /\ length (fst arrays') = w /\ length (snd arrays') = w.
Proof.
  intros A B w lane f rows. induction rows as [|[cr or] rows IH]; intros arrays W H C1 C2 L.
  - exists arrays. cbn. auto.
  - destruct (complete_row A B w lane f W H (S (length cr)) [] cr or arrays ltac:(lia) ltac:(apply L; now left) C1 C2) as (c & E & D1 & D2). cbn [app map length] in E.
    destruct (IH c W H D1 D2) as (c2 & E2 & D3); [intros x y I; apply L; now right|].
    exists c2. split; [|exact D3]. cbn [CompleteSimd map]. rewrite E, E2. reflexivity.
Qed.
Print Assumptions C163_simd.

(** One cell after the other: the same result. *)
Theorem C163_sequential : forall (A B : Type) (scalar : B -> A -> B) f rows complete, (forall b a, scalar b a = f a) ->
  (forall cons_row complete_row, In (cons_row, complete_row) rows -> (length cons_row <= length complete_row)%nat) ->
  exists complete', CompleteSeq scalar rows complete = Some (map (completed f) rows, complete').
Proof.
  intros A B scalar f rows. induction rows as [|[cr or] rows IH]; intros complete H L.
  - exists complete. reflexivity.
  - destruct (complete_cells A B scalar f H cr [] [] or complete ltac:(apply L; now left)) as (c & E). rewrite app_nil_r in E. cbn [app map length] in E.
    destruct (IH c H) as (c2 & E2); [intros x y I; apply L; now right|]. exists c2. cbn [CompleteSeq map]. rewrite E, E2. reflexivity.
Qed.
Print Assumptions C163_sequential.

(** So the choice of execution does not matter, for equations whose versions for vectors and for cells agree. *)
Theorem C163_agree : forall (A B : Type) w (lane scalar : B -> A -> B) rows arrays complete, (0 < w)%nat -> (forall b b' a, lane b a = scalar b' a) ->
  length (fst arrays) = w -> length (snd arrays) = w ->
  (forall cons_row complete_row, In (cons_row, complete_row) rows -> (length cons_row <= length complete_row)%nat) ->
  exists out arrays' complete', CompleteSimd w lane rows arrays = Some (out, arrays') /\ CompleteSeq scalar rows complete = Some (out, complete').
Proof.
  intros A B w lane scalar rows arrays complete W H C1 C2 L.
  destruct (C163_simd A B w lane (scalar complete) rows arrays W (fun b a => H b complete a) C1 C2 L) as (a & E & _).
  assert (G : forall b a, scalar b a = scalar complete a) by (intros b x; rewrite <- (H b b), (H b complete); reflexivity).
  destruct (C163_sequential A B scalar (scalar complete) rows complete G L) as (c & E2). exists (map (completed (scalar complete)) rows), a, c. split; assumption.
Qed.
Print Assumptions C163_agree.

(** The free function has the bounds of the target: each state of the target is written once, from the conservative state of the same cell. *)
Theorem C163_view : forall (A B : Type) (scalar : B -> A -> B) f rows complete, (forall b a, scalar b a = f a) ->
  (forall cons_row complete_row, In (cons_row, complete_row) rows -> (length complete_row <= length cons_row)%nat) ->
  exists complete', CompleteView scalar rows complete = Some (map (fun row => map f (firstn (length (snd row)) (fst row))) rows, complete').
Proof.
  intros A B scalar f rows. induction rows as [|[cr or] rows IH]; intros complete H L.
  - exists complete. reflexivity.
  - assert (Lr : (length or <= length cr)%nat) by (apply L; now left). assert (N : length (firstn (length or) cr) = length or) by (rewrite firstn_length; lia).
    destruct (complete_cells A B scalar f H (firstn (length or) cr) (skipn (length or) cr) [] or complete ltac:(lia)) as (c & E).
    cbn [app map length] in E. rewrite firstn_skipn, N in E. unfold completed in E. cbn [fst snd] in E. rewrite N, skipn_all, app_nil_r in E.
    destruct (IH c H) as (c2 & E2); [intros x y I; apply L; now right|]. exists c2. cbn [CompleteView map fst snd]. rewrite E, E2. reflexivity.
Qed.
Print Assumptions C163_view.

(** Vectors of four: a row of six cells with a target of seven, a row of four and an empty row, with old values in the arrays *)
Example C163_example :
  let rows := [([1; 2; 3; 4; 5; 6], [0; 0; 0; 0; 0; 0; 99]); ([7; 8; 9; 10], [0; 0; 0; 0]); ([], [])] in
  (forall cons_row complete_row, In (cons_row, complete_row) rows -> (length cons_row <= length complete_row)%nat) /\
  CompleteSimd 4 (fun _ a => 10 * a) rows ([50; 51; 52; 53], [60; 61; 62; 63]) =
    Some ([[10; 20; 30; 40; 50; 60; 99]; [70; 80; 90; 100]; []], ([7; 8; 9; 10], [70; 80; 90; 100])) /\
  CompleteSeq (fun _ a => 10 * a) rows 5 = Some ([[10; 20; 30; 40; 50; 60; 99]; [70; 80; 90; 100]; []], 100) /\
  CompleteView (fun _ a => 10 * a) [([1; 2; 3], [0; 0])] 5 = Some ([[10; 20]], 20).
Proof.
  cbn zeta. split; [intros c o [E|[E|[E|[]]]]; injection E as <- <-; cbn; lia|]. split; [reflexivity|]. split; reflexivity.
Qed.
