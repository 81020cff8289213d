(** Model of the memory resources: src/c4/memory_resource.hpp and .cpp.

    Addresses are integers; 0 is nullptr. [stop] says whether C4_ERROR and C4_CHECK end the
    call (throw or abort, the default); if not, the code goes on after them. Assertions
    (C4_ASSERT) are on and end the call. *)
From Verif Require Import Base SubstrModel FormatModel MemUtilModel.

Definition c4_error (stop : bool) {A} (k : res A) : res A := if stop then Err else k.

(** ** MemoryResourceLinear *)
(** m_mem, m_size, m_pos: memory_resource.hpp 282-284 *)
Record lin := Lin { lmem : Z; lsize : Z; lpos : Z }.
Definition set_pos (s : lin) (p : Z) : lin := Lin (lmem s) (lsize s) p.

(** do_allocate: memory_resource.cpp 199-223. [std_align] is std::align (FormatModel.v) *)
Definition lin_do_allocate (stop : bool) (s : lin) (sz al : Z) : res (lin * Z) :=
  if sz =? 0 then Ok (s, 0) else
  let mem := lmem s + lpos s in
  let space0 := u64 (lsize s - lpos s) in
  let k :=
    match std_align al sz mem space0 with
    | Some q =>
        let space := u64 (space0 - u64 (q - mem)) in
        assert (lpos s <=? lsize s)
        (assert (space <=? u64 (lsize s - lpos s))
        (let pos := u64 (lpos s + u64 (u64 (lsize s - lpos s) - space)) in
         let pos := u64 (pos + sz) in
         assert (pos <=? lsize s) (Ok (set_pos s pos, q))))
    | None => c4_error stop (Ok (s, mem))
    end in
  if lsize s <? u64 (lpos s + sz) then c4_error stop k else k.
(** do_reallocate: 233-259; pointer sums wrap *)
Definition lin_do_reallocate (stop : bool) (s : lin) (ptr oldsz newsz al : Z) : res (lin * Z) :=
  if newsz =? oldsz then Ok (s, ptr) else
  let same_pos := u64 (lmem s + lpos s) =? u64 (ptr + oldsz) in
  if newsz <? oldsz then
    Ok (if same_pos then set_pos s (u64 (lpos s - u64 (oldsz - newsz))) else s, ptr)
  else if same_pos && (u64 (ptr + newsz) <=? u64 (lmem s + lsize s)) then
    Ok (set_pos s (u64 (lpos s + u64 (newsz - oldsz))), ptr)
  else lin_do_allocate stop s newsz al.
(** MemoryResource::allocate, reallocate: memory_resource.hpp 119-131. deallocate does
    nothing (memory_resource.cpp 225-231) *)
Definition nonnull (stop : bool) (r : res (lin * Z)) : res (lin * Z) :=
  do '(s, p) <- r ;; if p =? 0 then c4_error stop (Ok (s, p)) else Ok (s, p).
Definition lin_allocate (stop : bool) (s : lin) (sz al : Z) : res (lin * Z) := nonnull stop (lin_do_allocate stop s sz al).
Definition lin_reallocate (stop : bool) (s : lin) (ptr oldsz newsz al : Z) : res (lin * Z) :=
  nonnull stop (lin_do_reallocate stop s ptr oldsz newsz al).

(** The same with the memory [m] (address to byte): no path of allocate or reallocate reads
    or writes it *)
Definition lin_reallocate_mem (stop : bool) (m : Z -> Z) (s : lin) (ptr oldsz newsz al : Z) : res ((Z -> Z) * lin * Z) :=
  do '(s, p) <- lin_reallocate stop s ptr oldsz newsz al ;; Ok (m, s, p).

(** A client and its live blocks: address, size, alignment. An error thrown by the resource
    is caught by the client; the members are then as before the call, since every throw
    comes before the first change of a member (except the last C4_ASSERT of do_allocate,
    which holds, see MemResProofs.v) *)
Record blk := Blk { bp : Z; bn : Z; ba : Z }.
Inductive lop := LAlloc (sz al : Z) | LFree (i : nat) | LRealloc (i : nat) (newsz al : Z).
Fixpoint drop_nth {A} (l : list A) (i : nat) : list A :=
  match l, i with [], _ => [] | _ :: t, O => t | x :: t, S i => x :: drop_nth t i end.
Definition caught {A} (r : res A) (a : A) : res A := match r with Err => Ok a | _ => r end.
Definition lin_step (stop : bool) (st : lin * list blk) (o : lop) : res (lin * list blk) :=
  let '(s, live) := st in
  match o with
  | LAlloc sz al => caught (do '(s, p) <- lin_allocate stop s sz al ;; Ok (s, live ++ [Blk p sz al])) st
  | LFree i => Ok (s, drop_nth live i)
  | LRealloc i n al =>
      match nth_error live i with
      | Some b => caught (do '(s, p) <- lin_reallocate stop s (bp b) (bn b) n al ;; Ok (s, upd live i (Blk p n al))) st
      | None => Ok (s, live)
      end
  end.
Fixpoint lin_run (stop : bool) (st : lin * list blk) (os : list lop) : res (lin * list blk) :=
  match os with [] => Ok st | o :: os => do st <- lin_step stop st o ;; lin_run stop st os end.

(** ** The malloc-based resource *)
(** [got]: what posix_memalign returns (None: out of memory). aalloc_impl: 39-77 *)
Definition ptr_size : Z := 8.
Definition aalloc_alignment (alignment : Z) : Z := if alignment <? ptr_size then ptr_size else alignment.
Definition aalloc (stop : bool) (got : option Z) (size alignment : Z) : res Z :=
  let k :=
    let alignment := aalloc_alignment alignment in
    let k :=
      match got with
      | None => c4_error stop (Ok 0)
      | Some mem => assert (Z.land mem (u64 (alignment - 1)) =? 0) (Ok mem)
      end in
    if Z.land alignment (ptr_size - 1) =? 0 then k else c4_error stop k in
  if (0 <? alignment) && (Z.land alignment (u64 (alignment - 1)) =? 0) then k else c4_error stop k.
(** arealloc_impl: 80-98; [m] is the address space, address 0 not in use *)
Definition memmove (m : list Z) (dst src n : Z) : res (list Z) := do l <- rds m src n ;; wrs m dst l.
Definition arealloc (stop : bool) (got : option Z) (m : list Z) (ptr oldsz newsz alignment : Z) : res (list Z * Z) :=
  do tmp <- aalloc stop got newsz alignment ;;
  let min := if newsz <? oldsz then newsz else oldsz in
  if (tmp =? 0) && (0 <? min) then Ub else
  do m <- (if mem_overlaps ptr tmp oldsz newsz then memmove m tmp ptr min else memcpy m tmp ptr min) ;;
  Ok (m, tmp).

(** ** Ownership of the chunk *)
(** _MemoryResourceSingleChunk: memory_resource.hpp 251-298; events at the upstream resource *)
Record chunk := Chunk { clin : lin; cowner : bool }.
Inductive event := EAlloc (a n : Z) | EFree (a n : Z).
(** constructors (memory_resource.hpp 260-267): the dynamic type is the base class, so
    allocation goes upstream, which returns [a] *)
Definition ctor_owned (sz a : Z) : chunk * list event := (Chunk (Lin a sz 0) true, [EAlloc a sz]).
Definition ctor_borrowed (mem sz : Z) : chunk := Chunk (Lin mem sz 0) false.
(** without a chunk; m_owner is not initialised *)
Definition ctor_empty (junk : bool) : chunk := Chunk (Lin 0 0 0) junk.
(** destructor: release() in the base class, memory_resource.cpp 165-176 *)
Definition dtor (c : chunk) : list event :=
  if negb (lmem (clin c) =? 0) && cowner c then [EFree (lmem (clin c)) (lsize (clin c))] else [].
(** the same function called on a complete MemoryResourceLinear: deallocate() dispatches
    to its do_deallocate, which does nothing *)
Definition release (c : chunk) : chunk * list event := (Chunk (Lin 0 0 0) false, []).
(** acquire(sz) on a complete object: 178-185; allocate() dispatches to the linear resource
    itself. [alignof(max_align_t)] is 16 *)
Definition acquire (stop : bool) (c : chunk) (sz : Z) : res (chunk * list event) :=
  do '(_, p) <- lin_allocate stop (set_pos (clin c) 0) sz 16 ;; Ok (Chunk (Lin p sz 0) true, []).
(** acquire(mem, sz): 187-194 *)
Definition acquire_mem (c : chunk) (mem sz : Z) : chunk * list event := (Chunk (Lin mem sz 0) false, []).
Inductive cop := CRelease | CAcquire (sz : Z) | CAcquireMem (mem sz : Z) | CUse (o : lop).
Definition cstep (stop : bool) (st : chunk * list blk) (o : cop) : res (chunk * list blk * list event) :=
  let '(c, live) := st in
  match o with
  | CRelease => let '(c, e) := release c in Ok (c, [], e)
  | CAcquire sz => do '(c, e) <- acquire stop c sz ;; Ok (c, [], e)
  | CAcquireMem mem sz => let '(c, e) := acquire_mem c mem sz in Ok (c, [], e)
  | CUse o => do '(s, live) <- lin_step stop (clin c, live) o ;; Ok (Chunk s (cowner c), live, [])
  end.
Fixpoint crun (stop : bool) (st : chunk * list blk) (os : list cop) : res (chunk * list blk * list event) :=
  match os with
  | [] => Ok (st, [])
  | o :: os => do '(st, e) <- cstep stop st o ;; do '(st, e') <- crun stop st os ;; Ok (st, e ++ e')
  end.
(** the whole life of the object *)
Definition life (stop : bool) (c : chunk) (e0 : list event) (os : list cop) : res (list event) :=
  do '(c, _, e) <- crun stop (c, []) os ;; Ok (e0 ++ e ++ dtor c).

(** ** Counters: memory_resource.hpp 383-467 *)
Record item := Item { ia : Z; isz : Z }.
Record counts := Counts { ccurr : item; ctotal : item; cmax : item }.
Definition zero_counts : counts := Counts (Item 0 0) (Item 0 0) (Item 0 0).
(** ssize_t arithmetic; [size_t] converted *)
Definition sadd (a b : Z) : res Z := arith i64 (a + b).
Definition ssub (a b : Z) : res Z := arith i64 (a - b).
Definition item_add (x : item) (sz : Z) : res item :=
  do a <- sadd (ia x) 1 ;; do s <- sadd (isz x) (wrap i64 sz) ;; Ok (Item a s).
Definition item_rem (x : item) (sz : Z) : res item :=
  do a <- ssub (ia x) 1 ;; do s <- ssub (isz x) (wrap i64 sz) ;; Ok (Item a s).
Definition item_max (x y : item) : item :=
  Item (if ia y <? ia x then ia x else ia y) (if isz y <? isz x then isz x else isz y).
Definition add_counts (c : counts) (ptr sz : Z) : res counts :=
  if ptr =? 0 then Ok c else
  do u <- item_add (ccurr c) sz ;; do t <- item_add (ctotal c) sz ;; Ok (Counts u t (item_max (cmax c) u)).
Definition rem_counts (c : counts) (ptr sz : Z) : res counts :=
  if ptr =? 0 then Ok c else do u <- item_rem (ccurr c) sz ;; Ok (Counts u (ctotal c) (cmax c)).

(** MemoryResourceCounts: 497-520. The outcome of the underlying resource is given: an
    address, or a thrown error. The client keeps its live blocks (address, size) *)
Inductive mop :=
| MAlloc (sz : Z) (got : option Z)
| MFree (i : nat)
| MRealloc (i : nat) (newsz : Z) (got : option Z).
Definition mstep (st : counts * list (Z * Z)) (o : mop) : res (counts * list (Z * Z)) :=
  let '(c, live) := st in
  match o with
  | MAlloc sz (Some p) => do c <- add_counts c p sz ;; Ok (c, live ++ [(p, sz)])
  | MAlloc _ None => Ok (c, live)
  | MFree i =>
      match nth_error live i with
      | Some (p, n) => do c <- rem_counts c p n ;; Ok (c, drop_nth live i)
      | None => Ok (c, live)
      end
  | MRealloc i newsz got =>
      match nth_error live i with
      | Some (p, n) =>
          do c <- rem_counts c p n ;;
          match got with
          | Some q => do c <- add_counts c q newsz ;; Ok (c, upd live i (q, newsz))
          | None => Ok (c, live)
          end
      | None => Ok (c, live)
      end
  end.
Fixpoint mrun (st : counts * list (Z * Z)) (os : list mop) : res (counts * list (Z * Z)) :=
  match os with [] => Ok st | o :: os => do st <- mstep st o ;; mrun st os end.
