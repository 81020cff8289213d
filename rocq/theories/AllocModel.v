(** Model of the allocators (src/c4/allocator.hpp) and of the scoped global settings
    (src/c4/error.hpp, src/c4/memory_resource.hpp). Single thread; assertions are on. *)
From Verif Require Import Base SubstrModel MemResModel.

(** ** Allocator *)
(** size_for<T>: allocator.hpp 29-32; [tsize] is sizeof(T) (1 for void) *)
Definition size_for (tsize num_objs : Z) : Z := u64 (num_objs * tsize).
(** what Allocator::allocate, deallocate and reallocate ask of the resource: 220-245; the
    resource must exist and the alignment be at least that of the type *)
Inductive request := QAlloc (sz al : Z) | QFree (ptr sz al : Z) | QRealloc (ptr oldsz newsz al : Z).
Definition allocate (tsize talign res num_objs al : Z) : Base.res request :=
  assert (negb (res =? 0)) (assert (talign <=? al) (Ok (QAlloc (size_for tsize num_objs) al))).
Definition deallocate (tsize talign res ptr num_objs al : Z) : Base.res request :=
  assert (negb (res =? 0)) (assert (talign <=? al) (Ok (QFree ptr (size_for tsize num_objs) al))).
Definition reallocate (tsize talign res ptr oldnum newnum al : Z) : Base.res request :=
  assert (negb (res =? 0)) (assert (talign <=? al)
    (Ok (QRealloc ptr (size_for tsize oldnum) (size_for tsize newnum) al))).

(** ** SmallAllocator *)
(** the parameters of one object: the address of m_arr, N and sizeof(T) *)
Record small := Small { sarr : Z; scap : Z; stsz : Z }.
(** allocate: 333-349; [got] is what the resource returns if asked. The new m_num, the
    address, the events at the resource *)
Definition small_allocate (a : small) (num n got : Z) : Z * Z * list event :=
  let '(p, e) :=
    if u64 (num + n) <=? scap a then (sarr a + num * stsz a, [])
    else (got, [EAlloc got (u64 (n * stsz a))]) in
  (u64 (num + n), p, e).
(** deallocate: 351-362 *)
Definition small_deallocate (a : small) (num ptr n : Z) : res (Z * list event) :=
  assert (n <=? num)
  (Ok (u64 (num - n),
       if (sarr a <=? ptr) && (ptr <? sarr a + scap a * stsz a) then []
       else [EFree ptr (u64 (n * stsz a))])).
(** reallocate: 364-384. [moved]: what the resource's reallocate returns *)
Inductive small_result :=
| SR (num addr : Z) (ev : list event)
| SRealloc (num addr : Z) (ptr oldsz newsz : Z). (* passed on to the resource *)
Definition small_reallocate (a : small) (num ptr oldnum newnum got : Z) : res small_result :=
  if (oldnum <=? scap a) && (newnum <=? scap a) then Ok (SR num (sarr a) [])
  else if (oldnum <=? scap a) && (scap a <? newnum) then
    let '(num, p, e) := small_allocate a num newnum got in Ok (SR num p e)
  else if (scap a <? oldnum) && (newnum <=? scap a) then
    do '(num, e) <- small_deallocate a num ptr oldnum ;; Ok (SR num (sarr a) e)
  else Ok (SRealloc num got ptr (u64 (oldnum * stsz a)) (u64 (newnum * stsz a))).

(** a client: its live blocks (address, number of objects), latest first; any of them may
    be given back *)
Inductive sop := SAlloc (n got : Z) | SFree (i : nat).
Definition small_step (a : small) (st : Z * list (Z * Z)) (o : sop) : res (Z * list (Z * Z) * list event) :=
  let '(num, live) := st in
  match o with
  | SAlloc n got => let '(num, p, e) := small_allocate a num n got in Ok (num, (p, n) :: live, e)
  | SFree i =>
      match nth_error live i with
      | Some (p, n) => do '(num, e) <- small_deallocate a num p n ;; Ok (num, drop_nth live i, e)
      | None => Ok (num, live, [])
      end
  end.
Fixpoint small_run (a : small) (st : Z * list (Z * Z)) (os : list sop) : res (Z * list (Z * Z) * list event) :=
  match os with
  | [] => Ok (st, [])
  | o :: os => do '(st, e) <- small_step a st o ;; do '(st, e') <- small_run a st os ;; Ok (st, e ++ e')
  end.

(** ** Global settings and scopes *)
(** the error flags and callback (error.cpp 49-72), the memory resource *)
Record glob := Glob { gflags : Z; gcb : Z; gres : Z }.
Definition set_error_flags (g : glob) (f : Z) : glob := Glob f (gcb g) (gres g).
Definition set_error_callback (g : glob) (c : Z) : glob := Glob (gflags g) c (gres g).
(** memory_resource.hpp 160-164 *)
Definition set_memory_resource (g : glob) (r : Z) : res glob :=
  assert (negb (r =? 0)) (Ok (Glob (gflags g) (gcb g) r)).
(** the constructors: ScopedErrorSettings (error.hpp 143-172), ScopedMemoryResource and
    ScopedMemoryResourceCounts (memory_resource.hpp 527-564). [self]: the address of the
    resource inside the counting scope *)
Inductive scope :=
| SErrCb (cb : Z) | SErrFlags (f : Z) | SErrBoth (f cb : Z)
| SMem (r : Z) | SCounts (self : Z) | SCountsOf (self m : Z).
Definition enter (k : scope) (g : glob) : res glob :=
  match k with
  | SErrCb cb => Ok (set_error_callback g cb)
  | SErrFlags f => Ok (set_error_flags g f)
  | SErrBoth f cb => Ok (set_error_callback (set_error_flags g f) cb)
  | SMem r => set_memory_resource g r
  | SCounts self => assert (negb (gres g =? self)) (set_memory_resource g self)
  | SCountsOf self m => assert (negb (m =? self)) (set_memory_resource g self)
  end.
(** the destructors; [saved] is the state at construction *)
Definition leave (k : scope) (saved g : glob) : res glob :=
  match k with
  | SErrCb _ | SErrFlags _ | SErrBoth _ _ =>
      Ok (set_error_callback (set_error_flags g (gflags saved)) (gcb saved))
  | SMem _ | SCounts _ => set_memory_resource g (gres saved)
  | SCountsOf _ m => set_memory_resource g m
  end.
(** programs; the destructors also run when an exception passes. The flag: an exception is
    under way *)
Inductive prog :=
| PSkip | PThrow | PFlags (f : Z) | PCb (c : Z) | PRes (r : Z)
| PSeq (p q : prog) | PTry (p : prog) | PScope (k : scope) (p : prog).
Fixpoint exec (p : prog) (g : glob) : res (glob * bool) :=
  match p with
  | PSkip => Ok (g, false)
  | PThrow => Ok (g, true)
  | PFlags f => Ok (set_error_flags g f, false)
  | PCb c => Ok (set_error_callback g c, false)
  | PRes r => do g <- set_memory_resource g r ;; Ok (g, false)
  | PSeq p q => do '(g, t) <- exec p g ;; if t : bool then Ok (g, t) else exec q g
  | PTry p => do '(g, _) <- exec p g ;; Ok (g, false)
  | PScope k p => do g1 <- enter k g ;; do '(g2, t) <- exec p g1 ;; do g3 <- leave k g g2 ;; Ok (g3, t)
  end.
