(** Model of the replaceable allocation functions: memory_resource.cpp 18-158, and the resource
    built on them, memory_resource.hpp 173-199.
    Simplified: an address is the number of the allocation that made the block, so that distinct
    blocks never overlap (arealloc_impl then takes the memcpy branch; the other one is C60, C79).
    The functions of a client are assumed to be right: [Cli k] are the three functions of client
    library [k], which know only their own blocks. Contents are [None] until written. *)
From Verif Require Import Base.

Inductive fn := Lib | Cli (k : Z).
Definition fn_eqb (f g : fn) : bool :=
  match f, g with Lib, Lib => true | Cli a, Cli b => a =? b | _, _ => false end.
(** a function pointer; None: nullptr *)
Definition pfn := option fn.
Record hooks := Hooks { ha : pfn; hf : pfn; hr : pfn }.
(** s_aalloc, s_afree, s_arealloc: 100-102 *)
Definition hooks0 : hooks := Hooks (Some Lib) (Some Lib) (Some Lib).
(** with C4_NO_ALLOC_DEFAULTS: 22-25, which says free_pfn for afree_pfn and does not compile *)
Definition hooks_none : hooks := Hooks None None None.
(** set_aalloc, set_afree, set_arealloc: 113-134 *)
Definition set_aalloc (h : hooks) (f : pfn) : hooks := Hooks f (hf h) (hr h).
Definition set_afree (h : hooks) (f : pfn) : hooks := Hooks (ha h) f (hr h).
Definition set_arealloc (h : hooks) (f : pfn) : hooks := Hooks (ha h) (hf h) f.

(** a block: whose it is, its contents; the heap: the blocks by address, None if given back *)
Record blk := Blk { bfam : fn; bdat : list (option Z) }.
Definition heap := list (option blk).
Definition ptr := option nat.
Fixpoint upd {A} (l : list A) (i : nat) (a : A) : list A :=
  match l, i with [], _ => [] | _ :: l, O => a :: l | x :: l, S i => x :: upd l i a end.
(** what the system answers to an allocation: memory, a null pointer without an error (allowed for
    no bytes), or an error; when the answers run out there is memory *)
Inductive answer := Got | Null | NoMem.
Record world := World { wheap : heap; wans : list answer }.
Definition ask (w : world) : answer * world :=
  match wans w with [] => (Got, w) | a :: r => (a, World (wheap w) r) end.
Definition fresh (f : fn) (w : world) (sz : Z) : world * ptr :=
  (World (wheap w ++ [Some (Blk f (repeat None (Z.to_nat sz)))]) (wans w), Some (length (wheap w))).

(** C4_ERROR, C4_CHECK *)
Definition c4_error (stop : bool) {A} (k : res A) : res A := if stop then Err else k.
(** aalloc_impl on POSIX: 39-77. [stop]: an error does not return *)
Definition aalloc_impl (stop : bool) (w : world) (size alignment : Z) : res (world * ptr) :=
  let k :=
    let alignment := if alignment <? 8 then 8 else alignment in
    let k :=
      let (a, w) := ask w in
      match a with
      | Got => Ok (fresh Lib w size)
      | Null => if size =? 0 then Ok (w, None) else c4_error stop (Ok (w, None))
      | NoMem => c4_error stop (Ok (w, None))
      end in
    if Z.land alignment 7 =? 0 then k else c4_error stop k in
  if (0 <? alignment) && (Z.land alignment (u64 (alignment - 1)) =? 0) then k else c4_error stop k.
(** a client's function returns nullptr when it has no memory *)
Definition aalloc_cli (k : Z) (w : world) (size : Z) : res (world * ptr) :=
  let (a, w) := ask w in match a with Got => Ok (fresh (Cli k) w size) | _ => Ok (w, None) end.
(** afree_impl: 29-36, and a client's function: the block must be one of theirs *)
Definition afree_fam (f : fn) (w : world) (p : ptr) : res world :=
  match p with
  | None => Ok w
  | Some i =>
      match nth_error (wheap w) i with
      | Some (Some b) => if fn_eqb (bfam b) f then Ok (World (upd (wheap w) i None) (wans w)) else Ub
      | _ => Ub
      end
  end.

(** C4_ASSERT_MSG(fn != nullptr) and the call: 137-158 *)
Definition call {A} (dbg : bool) (f : pfn) (k : fn -> res A) : res A :=
  match f with Some f => k f | None => if dbg then Err else Ub end.
Definition aalloc (dbg stop : bool) (h : hooks) (w : world) (sz al : Z) : res (world * ptr) :=
  call dbg (ha h) (fun f => match f with Lib => aalloc_impl stop w sz al | Cli k => aalloc_cli k w sz end).
Definition afree (dbg : bool) (h : hooks) (w : world) (p : ptr) : res world :=
  call dbg (hf h) (fun f => afree_fam f w p).
(** memcpy between two blocks; no null pointers *)
Definition copy (w : world) (dst src : ptr) (n : Z) : res world :=
  match dst, src with
  | Some d, Some s =>
      match nth_error (wheap w) d, nth_error (wheap w) s with
      | Some (Some bd), Some (Some bs) =>
          if (n <=? len (bdat bd)) && (n <=? len (bdat bs)) then
            Ok (World (upd (wheap w) d (Some (Blk (bfam bd)
              (firstn (Z.to_nat n) (bdat bs) ++ skipn (Z.to_nat n) (bdat bd))))) (wans w))
          else Ub
      | _, _ => Ub
      end
  | _, _ => Ub
  end.
(** arealloc_impl: 80-98, through the hooks *)
Definition arealloc_impl (dbg stop : bool) (h : hooks) (w : world) (p : ptr) (oldsz newsz al : Z) : res (world * ptr) :=
  do '(w, tmp) <- aalloc dbg stop h w newsz al ;;
  let min := if newsz <? oldsz then newsz else oldsz in
  do w <- copy w tmp p min ;;
  do w <- afree dbg h w p ;;
  Ok (w, tmp).
(** a client's function: as realloc(), the block stays if there is no memory *)
Definition arealloc_cli (k : Z) (w : world) (p : ptr) (oldsz newsz : Z) : res (world * ptr) :=
  match p with
  | None => aalloc_cli k w newsz
  | Some i =>
      match nth_error (wheap w) i with
      | Some (Some b) =>
          if fn_eqb (bfam b) (Cli k) then
            let (a, w) := ask w in
            match a with
            | Got =>
                let '(w, q) := fresh (Cli k) w newsz in
                do w <- copy w q p (if newsz <? oldsz then newsz else oldsz) ;;
                do w <- afree_fam (Cli k) w p ;; Ok (w, q)
            | _ => Ok (w, None)
            end
          else Ub
      | _ => Ub
      end
  end.
Definition arealloc (dbg stop : bool) (h : hooks) (w : world) (p : ptr) (oldsz newsz al : Z) : res (world * ptr) :=
  call dbg (hr h) (fun f => match f with
                            | Lib => arealloc_impl dbg stop h w p oldsz newsz al
                            | Cli k => arealloc_cli k w p oldsz newsz end).

(** MemoryResourceMalloc, through MemoryResource::allocate, reallocate and deallocate:
    memory_resource.hpp 121-138, 173-199 *)
Definition nonnull (stop : bool) (r : res (world * ptr)) : res (world * ptr) :=
  do '(w, p) <- r ;; match p with Some _ => Ok (w, p) | None => c4_error stop (Ok (w, p)) end.
Definition mr_allocate dbg stop h w sz al := nonnull stop (aalloc dbg stop h w sz al).
Definition mr_reallocate dbg stop h w p oldsz newsz al := nonnull stop (arealloc dbg stop h w p oldsz newsz al).

(** ** A program: it keeps the blocks it was given, with their sizes *)
Inductive op :=
| OSetA (f : pfn) | OSetF (f : pfn) | OSetR (f : pfn)
| OAlloc (mr : bool) (sz al : Z) | OFree (i : nat) | ORealloc (mr : bool) (i : nat) (newsz al : Z)
| OWrite (i : nat) (off c : Z).
Record state := State { sh : hooks; sw : world; sp : list (nat * Z) }.
Fixpoint drop {A} (l : list A) (i : nat) : list A :=
  match l, i with [], _ => [] | _ :: l, O => l | x :: l, S i => x :: drop l i end.
(** a store into a block *)
Definition store (w : world) (i : nat) (off c : Z) : res world :=
  match nth_error (wheap w) i with
  | Some (Some b) =>
      if (0 <=? off) && (off <? len (bdat b))
      then Ok (World (upd (wheap w) i (Some (Blk (bfam b) (upd (bdat b) (Z.to_nat off) (Some c))))) (wans w)) else Ub
  | _ => Ub
  end.
Definition step (dbg stop : bool) (s : state) (o : op) : res state :=
  let '(State h w ps) := s in
  match o with
  | OSetA f => Ok (State (set_aalloc h f) w ps)
  | OSetF f => Ok (State (set_afree h f) w ps)
  | OSetR f => Ok (State (set_arealloc h f) w ps)
  | OAlloc mr sz al =>
      do '(w, p) <- (if mr then mr_allocate dbg stop h w sz al else aalloc dbg stop h w sz al) ;;
      Ok (State h w (match p with Some i => ps ++ [(i, sz)] | None => ps end))
  | OFree i =>
      match nth_error ps i with
      | Some (b, _) => do w <- afree dbg h w (Some b) ;; Ok (State h w (drop ps i))
      | None => Ub
      end
  | ORealloc mr i newsz al =>
      match nth_error ps i with
      | Some (b, n) =>
          do '(w, p) <- (if mr then mr_reallocate dbg stop h w (Some b) n newsz al
                         else arealloc dbg stop h w (Some b) n newsz al) ;;
          Ok (State h w (match p with Some q => upd ps i (q, newsz) | None => ps end))
      | None => Ub
      end
  | OWrite i off c =>
      match nth_error ps i with
      | Some (b, _) => do w <- store w b off c ;; Ok (State h w ps)
      | None => Ub
      end
  end.
Fixpoint run (dbg stop : bool) (s : state) (os : list op) : res state :=
  match os with [] => Ok s | o :: os => do s <- step dbg stop s o ;; run dbg stop s os end.
