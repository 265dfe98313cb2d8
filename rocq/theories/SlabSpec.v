(** Vocabulary for C165. *)
From Coq Require Import List Reals Arith.
Import ListNotations.

(** The last value recorded for a probe, component and level, zero if there is none *)
Definition recorded (hits : list (nat * nat * nat * R)) (p f level : nat) : R :=
  fold_left (fun x h => let '(k, c, l, v) := h in if (k =? p) && (c =? f) && (l =? level) then v else x)%bool hits 0%R.

(** The value of the finest level up to [level] on which it is not zero *)
Fixpoint finest (hits : list (nat * nat * nat * R)) (p f level : nat) : R :=
  match level with
  | O => recorded hits p f 0
  | S l => if Req_EM_T (recorded hits p f level) 0 then finest hits p f l else recorded hits p f level
  end.
