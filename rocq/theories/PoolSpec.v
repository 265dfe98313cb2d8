(** Specification vocabulary for the pool allocator: histories of well behaved users. *)
From Coq Require Import List ZArith Bool.
From Verif Require Import PoolModel.
Import ListNotations.
Local Open Scope Z_scope.

(** A history: the pool, and the blocks (pointer and size) which the user holds.  Users only give back or write
    to blocks they hold; the upstream resource returns addresses of fresh blocks which do not overlap others. *)
Inductive history : list call -> pool -> list (Z * Z) -> Prop :=
| h_new : history [] new_pool []
| h_allocate cs s live bytes up p s' : history cs s live -> 0 <= bytes -> 0 < up ->
    (forall a n, In (a, n) (upstream s) -> up + (8 + bytes) <= a \/ a + n <= up) ->
    do_allocate s bytes up = Ok p s' -> history (cs ++ [Allocate bytes up]) s' ((p, bytes) :: live)
| h_deallocate cs s live1 live2 p bytes : history cs s (live1 ++ (p, bytes) :: live2) ->
    history (cs ++ [Deallocate p]) (do_deallocate s p) (live1 ++ live2)
| h_write cs s live p bytes v : history cs s live -> In (p, bytes) live ->
    history (cs ++ [Write p v]) (user_write s p v) live.

(** No block is ever written to by its owner. *)
Definition no_writes (cs : list call) : Prop := forall p v, ~ In (Write p v) cs.
