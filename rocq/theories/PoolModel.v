(** Model of the pool allocator.  Source: src/PoolAllocator.cpp, include/fub/PoolAllocator.hpp.
    Addresses are integers, 0 is the null pointer, [sizeof(std::size_t) = sizeof(void* ) = 8].  Blocks obtained
    from the upstream resource do not overlap; alignment is not modelled.  The constructor and [do_is_equal]
    are declared in PoolAllocator.hpp:29,42 but not defined in the sources. *)
From Coq Require Import List ZArith Bool.
Import ListNotations.
Local Open Scope Z_scope.

(** PoolAllocator.hpp:45-47 members, and the memory they refer to:
    [heads n]  the pointer [free_buckets_[n]] (value-initialised to null by operator[]),
    [word p]   the first word of the block at [p] ([bucket_node::next] or user data),
    [header p] the word in front of [p],
    [all]      [all_pointers_], the oldest first,
    [upstream] the blocks obtained from [memory_resource_] and not given back: address and size. *)
Record pool := mkPool { heads : Z -> Z; word : Z -> Z; header : Z -> Z; all : list Z; upstream : list (Z * Z) }.

(** writing one word, PoolAllocator.cpp:29,31,32,41,42 *)
Definition put (f : Z -> Z) (k v : Z) : Z -> Z := fun x => if Z.eqb x k then v else f x.

(** Result of a call: the pointer with the new state, or undefined behaviour: reading through a pointer which
    is not a block of the pool, or writing a [bucket_node] into a block which is smaller *)
Inductive result := Ok (p : Z) (s : pool) | Wild | Overrun.

(** PoolAllocator.cpp:13-35 [do_allocate]; [up] is the address the upstream resource returns if it is asked *)
Definition do_allocate (s : pool) (bytes up : Z) : result :=
  let head := heads s bytes in
  if negb (Z.eqb head 0) then
    (* 18-25 *)
    if existsb (Z.eqb head) (all s) then
      Ok head (mkPool (put (heads s) bytes (word s head)) (word s) (header s) (all s) (upstream s))
    else Wild
  else
    (* 27-34 *)
    let p := up + 8 in
    if bytes <? 8 then Overrun
    else Ok p (mkPool (put (heads s) bytes p) (put (word s) p head) (put (header s) p bytes) (all s ++ [p])
                 ((up, 8 + bytes) :: upstream s)).

(** PoolAllocator.cpp:37-43 [do_deallocate] *)
Definition do_deallocate (s : pool) (p : Z) : pool :=
  let bytes := header s p in
  mkPool (put (heads s) bytes p) (put (word s) p (heads s bytes)) (header s) (all s) (upstream s).

(** The owner of a block writes to it (its first word), not part of the library *)
Definition user_write (s : pool) (p v : Z) : pool :=
  mkPool (heads s) (put (word s) p v) (header s) (all s) (upstream s).

(** PoolAllocator.hpp:45-47 a new resource *)
Definition new_pool : pool := mkPool (fun _ => 0) (fun _ => 0) (fun _ => 0) [] [].

(** PoolAllocator.cpp:45-51 the destructor: the arguments of the calls [memory_resource_->deallocate(p, bytes)] *)
Definition release (s : pool) : list (Z * Z) := map (fun p => (p - 8, 1)) (all s).

(** What a user of the resource does *)
Inductive call := Allocate (bytes up : Z) | Deallocate (p : Z) | Write (p v : Z).
