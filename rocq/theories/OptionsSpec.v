(** Vocabulary for C159. *)
From Coq Require Import String List ZArith.
Import ListNotations.

(** A dictionary gives the value v to a name; names are unique *)
Definition gives {obj} (dict : list (string * obj)) (name : string) (v : obj) : Prop := In (name, v) dict.
Definition silent {obj} (dict : list (string * obj)) (name : string) : Prop := forall v, ~ In (name, v) dict.
Definition unique_names {obj} (dict : list (string * obj)) : Prop := NoDup (map fst dict).
(** Names which Python reserves *)
Definition reserved (name : string) : Prop := prefix "__" name = true.
