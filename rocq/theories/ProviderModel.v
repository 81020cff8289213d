(** Model of the memory resource providers and of the copies of allocators
    (allocator.hpp 39-67, 78-152, 193-233, 288-332), and of the arithmetic on allocation
    counts (memory_resource.hpp 420-467). Single thread. A resource is its address. *)
From Verif Require Import Base SubstrModel MemResModel AllocModel.

(** ** Providers. [g] is the global memory resource at the time *)
Inductive provider := PMem (r : Z) | PGlobal.
Inductive kind := KMem | KGlobal.
Definition kind_of (p : provider) : kind := match p with PMem _ => KMem | PGlobal => KGlobal end.
(** resource(): 48, 66 *)
Definition resource (p : provider) (g : Z) : Z := match p with PMem r => r | PGlobal => g end.
(** the default constructors: 45, 63 *)
Definition provider_default (k : kind) (g : Z) : provider := match k with KMem => PMem g | KGlobal => PGlobal end.
(** the constructors from a resource: 46, 64 *)
Definition provider_from (dbg : bool) (k : kind) (g r : Z) : res provider :=
  match k with
  | KMem => Ok (PMem (if r =? 0 then g else r))
  | KGlobal => assert (negb dbg || (r =? g)) (Ok PGlobal)
  end.
(** Allocator(Allocator<U> const&): 223, used by rebound(): 212-216 *)
Definition rebound (dbg : bool) (g : Z) (p : provider) : res provider := provider_from dbg (kind_of p) g (resource p g).
(** operator==: 193-197 *)
Definition alloc_eq (g : Z) (p q : provider) : bool := resource p g =? resource q g.

(** ** A client with any number of allocators. A block remembers the allocator it came from
    and (for the statement) the resource. A block is only given back through an allocator
    that is equal to the one it came from *)
Record block := Block { baddr : Z; bprov : provider; borigin : Z }.
Record world := World { wglob : Z; wallocs : list provider; wblocks : list block }.
Inductive aop :=
| ASetGlobal (r : Z) | ADefault (k : kind) | AFrom (k : kind) (r : Z) | ACopy (i : nat) | ARebind (i : nat)
| AAssign (i j : nat) | AAlloc (i : nat) (addr : Z) | AFree (i b : nat).
Inductive aevent := GotFrom (r addr : Z) | GaveTo (r addr : Z).
Definition astep (dbg : bool) (w : world) (o : aop) : res (world * list aevent) :=
  let g := wglob w in let add p := World g (wallocs w ++ [p]) (wblocks w) in
  match o with
  | ASetGlobal r => assert (negb dbg || negb (r =? 0)) (Ok (World r (wallocs w) (wblocks w), []))
  | ADefault k => Ok (add (provider_default k g), [])
  | AFrom k r => do p <- provider_from dbg k g r ;; Ok (add p, [])
  | ACopy i => Ok (match nth_error (wallocs w) i with Some p => add p | None => w end, [])
  | ARebind i => match nth_error (wallocs w) i with Some p => do q <- rebound dbg g p ;; Ok (add q, []) | None => Ok (w, []) end
  | AAssign i j => (* between allocators of one type *)
      match nth_error (wallocs w) i, nth_error (wallocs w) j with
      | Some p, Some q =>
          match kind_of p, kind_of q with
          | KMem, KMem | KGlobal, KGlobal => Ok (World g (upd (wallocs w) i q) (wblocks w), [])
          | _, _ => Ok (w, [])
          end
      | _, _ => Ok (w, [])
      end
  | AAlloc i addr =>
      match nth_error (wallocs w) i with
      | Some p => Ok (World g (wallocs w) (Block addr p (resource p g) :: wblocks w), [GotFrom (resource p g) addr])
      | None => Ok (w, [])
      end
  | AFree i b =>
      match nth_error (wallocs w) i, nth_error (wblocks w) b with
      | Some p, Some k =>
          if alloc_eq g p (bprov k) then Ok (World g (wallocs w) (drop_nth (wblocks w) b), [GaveTo (resource p g) (baddr k)])
          else Ok (w, [])
      | _, _ => Ok (w, [])
      end
  end.
Fixpoint arun (dbg : bool) (w : world) (os : list aop) : res (world * list aevent) :=
  match os with
  | [] => Ok (w, [])
  | o :: os => do '(w, e) <- astep dbg w o ;; do '(w, e') <- arun dbg w os ;; Ok (w, e ++ e')
  end.

(** ** SmallAllocator: copies have their own array and the same count (324-328); conversions
    start with none and assert that there is none (318-322); == is always false (288-297) *)
Definition small_copy (a : small) (addr : Z) : small := Small addr (scap a) (stsz a).
Definition small_convert (dbg : bool) (num : Z) : res Z := assert (negb dbg || (num =? 0)) (Ok 0).
Definition small_eq (a b : small) : bool := false.
(** rebind<U>::other: 302-306; a type is its sizeof and alignof, with the parameters N and Alignment *)
Record small_type := SmallType { st_size : Z; st_talign : Z; st_n : Z; st_align : Z }.
Definition small_rebind (a : small_type) (usize ualign : Z) : small_type := SmallType usize ualign (st_n a) ualign.

(** ** The overloads of construct(), 78-152: which are enabled for a type. [uses]:
    uses_allocator<T, MemoryResource* >; [plain], [leading], [trailing]: T can be constructed from
    the arguments alone, after (allocator_arg, resource), and before (resource) *)
Inductive construct_call := CPlain | CLeading | CTrailing.
Definition construct_overloads (uses plain leading trailing : bool) : list construct_call :=
  (if negb uses && plain then [CPlain] else []) ++ (if uses && leading then [CLeading] else []) ++ (if uses && trailing then [CTrailing] else []).

(** ** Counts *)
Definition item_plus (x y : item) : res item := do a <- sadd (ia x) (ia y) ;; do s <- sadd (isz x) (isz y) ;; Ok (Item a s).
Definition item_minus (x y : item) : res item := do a <- ssub (ia x) (ia y) ;; do s <- ssub (isz x) (isz y) ;; Ok (Item a s).
(** operator+ 456-466 and update 420-428 *)
Definition counts_plus (x y : counts) : res counts :=
  do u <- item_plus (ccurr x) (ccurr y) ;; do t <- item_plus (ctotal x) (ctotal y) ;; do m <- item_plus (cmax x) (cmax y) ;; Ok (Counts u t m).
(** operator- 444-454 *)
Definition counts_minus (x y : counts) : res counts :=
  do u <- item_minus (ccurr x) (ccurr y) ;; do t <- item_minus (ctotal x) (ctotal y) ;; do m <- item_minus (cmax x) (cmax y) ;; Ok (Counts u t m).
(** a history of a counter *)
Inductive cev := CAdd (sz : Z) | CRem (sz : Z).
Definition cstep1 (c : counts) (e : cev) : res counts := match e with CAdd sz => add_counts c 1 sz | CRem sz => rem_counts c 1 sz end.
Fixpoint counts_run (c : counts) (es : list cev) : res counts :=
  match es with [] => Ok c | e :: es => do c <- cstep1 c e ;; counts_run c es end.
