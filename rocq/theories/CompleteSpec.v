(** Vocabulary for C163. *)
From Coq Require Import List.

(** The result for a row: every conservative state is completed, what lies behind the last of them is unchanged *)
Definition completed {A B : Type} (f : A -> B) (row : list A * list B) : list B := map f (fst row) ++ skipn (length (fst row)) (snd row).
