(** Specification of the memory resources. *)
From Verif Require Import Base MemResModel.

(** ** Blocks of an arena *)
Definition apart (b c : blk) : Prop := bn b = 0 \/ bn c = 0 \/ bp b + bn b <= bp c \/ bp c + bn c <= bp b.
Definition inside (base size : Z) (b : blk) : Prop := base <= bp b /\ 0 <= bn b /\ bp b + bn b <= base + size.
Definition aligned (b : blk) : Prop := (ba b | bp b).
Definition blocks_ok (base size : Z) (live : list blk) : Prop :=
  (forall b, In b live -> inside base size b /\ aligned b) /\
  (forall i j b c, i <> j -> nth_error live i = Some b -> nth_error live j = Some c -> apart b c).
(** an arena in the address space, not at address 0 *)
Definition arena (base size : Z) : Prop := 0 < base /\ 0 <= size /\ base + size < 2 ^ 64.
(** requests: a reallocation does not ask for more alignment than the block had, and its
    size does not run over the end of the address space *)
Definition legal_op (live : list blk) (o : lop) : Prop :=
  match o with
  | LAlloc sz al => 0 <= sz < 2 ^ 64 /\ 0 < al < 2 ^ 64
  | LFree _ => True
  | LRealloc i n al =>
      0 < al < 2 ^ 64 /\ 0 <= n /\ forall b, nth_error live i = Some b -> (al | ba b) /\ bp b + n < 2 ^ 64
  end.
Fixpoint legal (stop : bool) (st : lin * list blk) (os : list lop) : Prop :=
  match os with
  | [] => True
  | o :: os => legal_op (snd st) o /\ forall st', lin_step stop st o = Ok st' -> legal stop st' os
  end.
(** an address at which a block fits into the free part *)
Definition fits (lo hi sz al q : Z) : Prop := lo <= q /\ q + sz <= hi /\ (al | q).

(** ** Upstream events *)
Definition is_free (e : event) : bool := match e with EFree _ _ => true | _ => false end.
Definition only_use (o : cop) : Prop := match o with CUse _ => True | _ => False end.
Definition no_acquire (o : cop) : Prop := match o with CAcquire _ => False | _ => True end.

(** ** Counters: the live blocks as a client sees them, without any counter *)
Definition client (live : list (Z * Z)) (o : mop) : list (Z * Z) :=
  match o with
  | MAlloc sz (Some p) => live ++ [(p, sz)]
  | MAlloc _ None => live
  | MFree i => drop_nth live i
  | MRealloc i n (Some q) => upd live i (q, n)
  | MRealloc _ _ None => live
  end.
Definition obtained (live : list (Z * Z)) (o : mop) : list (Z * Z) :=
  match o with
  | MAlloc sz (Some p) => [(p, sz)]
  | MRealloc i n (Some q) => if (i <? length live)%nat then [(q, n)] else []
  | _ => []
  end.
Fixpoint final (live : list (Z * Z)) (os : list mop) : list (Z * Z) :=
  match os with [] => live | o :: os => final (client live o) os end.
Fixpoint states (live : list (Z * Z)) (os : list mop) : list (list (Z * Z)) :=
  live :: match os with [] => [] | o :: os => states (client live o) os end.
Fixpoint ever (live : list (Z * Z)) (os : list mop) : list (Z * Z) :=
  match os with [] => [] | o :: os => obtained live o ++ ever (client live o) os end.
(** blocks at address 0 are no blocks *)
Definition number (l : list (Z * Z)) : Z := len (filter (fun b => negb (fst b =? 0)) l).
Definition bytes (l : list (Z * Z)) : Z :=
  fold_right Z.add 0 (map snd (filter (fun b => negb (fst b =? 0)) l)).
Definition maximum (l : list Z) (v : Z) : Prop := In v l /\ forall x, In x l -> x <= v.
(** sizes are not negative, the underlying reallocation does not throw *)
Definition count_op (o : mop) : Prop :=
  match o with
  | MAlloc sz _ => 0 <= sz
  | MFree _ => True
  | MRealloc _ n got => 0 <= n /\ got <> None
  end.
