(** Model of src/c4/ctor_dtor.hpp: construction, destruction, make_room, destroy_room.

    Memory is counted in elements, not bytes (so n * sizeof(U) is n). For element types that
    are copied bytewise the memory is a list of values. For other types it is a list of
    cells that says where an object lives. Buffers are offsets into one memory. [t] is the
    integer type I of the sizes. Assertions are on. *)
From Verif Require Import Base SubstrModel MemUtilModel MemResModel.

(** ** Trivial element types *)
(** make_room (one buffer): ctor_dtor.hpp 303-315 *)
Definition make_room_t (m : list Z) (buf bufsz room : Z) : res (list Z) :=
  assert ((0 <=? bufsz) && (0 <=? room))
  (if bufsz <=? room then memcpy m (buf + room) buf bufsz else memmove m (buf + room) buf bufsz).
(** make_room (two buffers): 351-358 *)
Definition make_room2_t (m : list Z) (dst src srcsz room pos : Z) : res (list Z) :=
  assert ((0 <=? srcsz) && (0 <=? room) && (0 <=? pos))
  (assert ((pos <? srcsz) || ((pos =? 0) && (srcsz =? 0)))
  (do m <- memcpy m dst src pos ;; memcpy m (dst + room + pos) (src + pos) (srcsz - pos))).
(** destroy_room (one buffer): 395-408 *)
Definition destroy_room_t (m : list Z) (buf n room : Z) : res (list Z) :=
  assert ((0 <=? n) && (0 <=? room))
  (assert (room <=? n) (if room <? n then memmove m buf (buf + room) (n - room) else Ok m)).
(** destroy_room (two buffers): 432-440 *)
Definition destroy_room2_t (m : list Z) (dst src n room pos : Z) : res (list Z) :=
  assert ((0 <=? n) && (0 <=? room) && (0 <=? pos))
  (assert (pos <? n) (assert (pos + room <=? n)
  (do m <- memcpy m dst src pos ;; memcpy m (dst + pos) (src + room + pos) (n - pos - room)))).
(** construct_n, copy_construct_n, copy_assign_n, move_construct_n, move_assign_n: 33-37,
    93-98, 159-164, 225-230, 256-261 *)
Definition construct_n_t (m : list Z) (ptr n : Z) : res (list Z) := wrs m ptr (repeat 0 (Z.to_nat n)).
Definition copy_n_t (m : list Z) (dst src n : Z) : res (list Z) := assert (negb (dst =? src)) (memcpy m dst src n).

(** ** Other element types *)
(** no object, an object with a value, an object moved from *)
Inductive cell := Raw | Live (v : Z) | Moved.
(** the memory, and the objects that were overwritten by a construction without having
    been destroyed *)
Definition objs : Type := list cell * list cell.
Definition rdc (m : list cell) (i : Z) : res cell :=
  if (0 <=? i) && (i <? len m) then Ok (nth (Z.to_nat i) m Raw) else Ub.
(** reading an object; where there is none it is undefined *)
Definition obj (m : list cell) (i : Z) : res cell :=
  do c <- rdc m i ;; match c with Raw => Ub | _ => Ok c end.
Definition setc (m : list cell) (i : Z) (c : cell) : list cell := upd m (Z.to_nat i) c.
Definition is_object (c : cell) : bool := match c with Raw => false | _ => true end.
(** new (dst) U(): *)
Definition new_at (st : objs) (dst : Z) (c : cell) : res objs :=
  let '(m, lost) := st in
  do old <- rdc m dst ;; Ok (setc m dst c, if is_object old then lost ++ [old] else lost).
(** new (dst) U(std::move( *src )): an object cannot be constructed from itself *)
Definition new_move (st : objs) (dst src : Z) : res objs :=
  if dst =? src then Ub else
  do c <- obj (fst st) src ;;
  do '(m, lost) <- new_at st dst c ;; Ok (setc m src Moved, lost).
(** new (dst) U( *src ), also with std::move of a const object *)
Definition new_copy (st : objs) (dst src : Z) : res objs :=
  if dst =? src then Ub else do c <- obj (fst st) src ;; new_at st dst c.
(** *dst = std::move( *src ); moving to itself leaves the object moved from *)
Definition move_to (st : objs) (dst src : Z) : res objs :=
  let '(m, lost) := st in
  do c <- obj m src ;; do _ <- obj m dst ;; Ok (setc (setc m dst c) src Moved, lost).
(** *dst = *src *)
Definition copy_to (st : objs) (dst src : Z) : res objs :=
  let '(m, lost) := st in
  do c <- obj m src ;; do _ <- obj m dst ;; Ok (setc m dst c, lost).
Definition destroy_at (st : objs) (i : Z) : res objs :=
  let '(m, lost) := st in do _ <- obj m i ;; Ok (setc m i Raw, lost).
(** for(i = 0; i < n; ++i) *)
Fixpoint loop (n : nat) (f : Z -> objs -> res objs) (st : objs) : res objs :=
  match n with O => Ok st | S n => do st <- loop n f st ;; f (Z.of_nat n) st end.
Definition for_n (n : Z) := loop (Z.to_nat n).

(** make_room (one buffer): 317-337 *)
Definition make_room (st : objs) (buf bufsz room : Z) : res objs :=
  assert ((0 <=? bufsz) && (0 <=? room))
  (if bufsz <=? room then for_n bufsz (fun i st => new_move st (buf + (i + room)) (buf + i)) st
   else for_n bufsz (fun i st => let w := bufsz - 1 - i in new_move st (buf + (w + room)) (buf + w)) st).
(** make_room (two buffers): 360-375; the source is const, so it is copied *)
Definition make_room2 (st : objs) (dst src srcsz room pos : Z) : res objs :=
  assert ((0 <=? srcsz) && (0 <=? room) && (0 <=? pos))
  (assert ((pos <? srcsz) || ((pos =? 0) && (srcsz =? 0)))
  (do st <- for_n pos (fun i st => new_copy st (dst + i) (src + i)) st ;;
   for_n (srcsz - pos) (fun i st => new_copy st (dst + (room + pos) + i) (src + pos + i)) st)).
(** destroy_room (one buffer): 410-429 *)
Definition destroy_room (st : objs) (buf n room : Z) : res objs :=
  assert ((0 <=? n) && (0 <=? room))
  (assert (room <=? n)
  (if room <? n then for_n (n - room) (fun i st => move_to st (buf + i) (buf + (i + room))) st
   else for_n n (fun i st => destroy_at st (buf + i)) st)).
(** destroy_room (two buffers): 442-459 *)
Definition destroy_room2 (st : objs) (dst src n room pos : Z) : res objs :=
  assert ((0 <=? n) && (0 <=? room) && (0 <=? pos))
  (assert (pos <? n) (assert (pos + room <=? n)
  (do st <- for_n pos (fun i st => new_copy st (dst + i) (src + i)) st ;;
   for_n (n - pos - room) (fun i st => new_copy st (dst + pos + i) (src + (room + pos) + i)) st))).
(** construct_n 39-46, copy_construct_n 99-107, copy_assign_n 165-173, move_construct_n
    231-239, move_assign_n 262-270, destroy_n 291-298 *)
Definition construct_n (st : objs) (ptr n v : Z) : res objs := for_n n (fun i st => new_at st (ptr + i) (Live v)) st.
Definition copy_construct_n (st : objs) (dst src n : Z) : res objs :=
  assert (negb (dst =? src)) (for_n n (fun i st => new_copy st (dst + i) (src + i)) st).
(** copy_construct_n of one value, given by reference: 128-136 *)
Definition copy_construct_ref_n (st : objs) (dst src n : Z) : res objs :=
  assert (negb (dst =? src)) (for_n n (fun i st => new_copy st (dst + i) src) st).
Definition copy_assign_n (st : objs) (dst src n : Z) : res objs :=
  assert (negb (dst =? src)) (for_n n (fun i st => copy_to st (dst + i) (src + i)) st).
Definition move_construct_n (st : objs) (dst src n : Z) : res objs :=
  assert (negb (dst =? src)) (for_n n (fun i st => new_move st (dst + i) (src + i)) st).
Definition move_assign_n (st : objs) (dst src n : Z) : res objs :=
  assert (negb (dst =? src)) (for_n n (fun i st => move_to st (dst + i) (src + i)) st).
Definition destroy_n (st : objs) (ptr n : Z) : res objs := for_n n (fun i st => destroy_at st (ptr + i)) st.

(** ** The checks of the versions with a position: 339-347 and 377-390, for any of the
    functions [k] above; the sum is computed in the promoted type *)
Definition room_checks {A} (t : ity) (bufsz currsz pos room : Z) (k : res A) : res A :=
  assert ((0 <=? pos) && (pos <=? currsz))
  (assert (currsz <=? bufsz)
  (do s <- arith (promote t) (room + currsz) ;; assert (s <=? bufsz) k)).
Definition make_room_pos_t (t : ity) (m : list Z) (buf bufsz currsz pos room : Z) : res (list Z) :=
  room_checks t bufsz currsz pos room (make_room_t m (buf + pos) (currsz - pos) room).
Definition make_room_pos (t : ity) (st : objs) (buf bufsz currsz pos room : Z) : res objs :=
  room_checks t bufsz currsz pos room (make_room st (buf + pos) (currsz - pos) room).
Definition room2_checks {A} (t : ity) (dstsz srcsz room pos : Z) (k : res A) : res A :=
  assert (((0 <=? pos) && (pos <? srcsz)) || ((srcsz =? 0) && (pos =? 0)))
  (assert (((0 <=? pos) && (pos <? dstsz)) || ((dstsz =? 0) && (pos =? 0)))
  (do s <- arith (promote t) (srcsz + room) ;; assert (s <=? dstsz) k)).
Definition make_room2_sz_t (t : ity) (m : list Z) (dst dstsz src srcsz room pos : Z) : res (list Z) :=
  room2_checks t dstsz srcsz room pos (make_room2_t m dst src srcsz room pos).
Definition make_room2_sz (t : ity) (st : objs) (dst dstsz src srcsz room pos : Z) : res objs :=
  room2_checks t dstsz srcsz room pos (make_room2 st dst src srcsz room pos).
