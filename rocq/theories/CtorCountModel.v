(** Model of the sizes in bytes of ctor_dtor.hpp, trivial versions, and of mem_zero
    (memory_util.hpp 32-48). Here the memory is bytes; [sz] is sizeof(U). The
    type I of the count does not matter, any value is converted to size_t. *)
From Verif Require Import Base SubstrModel MemUtilModel.

(** n * sizeof(U) *)
Definition count_bytes (n sz : Z) : Z := u64 (u64 n * sz).
Definition memset0 (m : list Z) (p k : Z) : res (list Z) := wrs m p (repeat 0 (Z.to_nat k)).
(** construct: ctor_dtor.hpp 20-24; construct_n: 33-37 *)
Definition construct_b (m : list Z) (p sz : Z) : res (list Z) := memset0 m p sz.
Definition construct_n_b (m : list Z) (p n sz : Z) : res (list Z) := memset0 m p (count_bytes n sz).
(** copy_construct_n, copy_assign_n, move_construct_n, move_assign_n: 93-98, 159-164,
    225-230, 256-261 *)
Definition copy_n_b (m : list Z) (dst src n sz : Z) : res (list Z) :=
  assert (negb (dst =? src)) (memcpy m dst src (count_bytes n sz)).
(** mem_zero of bytes, of elements, of one element: memory_util.hpp 33-36, 38-42, 44-48; the
    number is converted to size_t by the call *)
Definition mem_zero_bytes (m : list Z) (p n : Z) : res (list Z) := memset0 m p (u64 n).
Definition mem_zero_n (m : list Z) (p n sz : Z) : res (list Z) := memset0 m p (u64 (sz * u64 n)).
Definition mem_zero_1 (m : list Z) (p sz : Z) : res (list Z) := memset0 m p sz.
