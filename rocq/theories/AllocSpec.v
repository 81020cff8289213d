(** Specification of the allocators and of the scoped settings. *)
From Verif Require Import Base MemResModel AllocModel.

(** ** Blocks: address and number of objects of size [tsize] *)
Definition disjoint_blocks (tsize : Z) (b c : Z * Z) : Prop :=
  fst b + snd b * tsize <= fst c \/ fst c + snd c * tsize <= fst b.
Definition pairwise {A} (R : A -> A -> Prop) (l : list A) : Prop :=
  forall i j b c, i <> j -> nth_error l i = Some b -> nth_error l j = Some c -> R b c.
(** inside the inline array, or not touching it *)
Definition in_array (a : small) (b : Z * Z) : Prop :=
  sarr a <= fst b /\ fst b + snd b * stsz a <= sarr a + scap a * stsz a.
Definition off_array (a : small) (b : Z * Z) : Prop :=
  disjoint_blocks (stsz a) b (sarr a, scap a).
(** what the resource has given out and not got back; a block not given out cannot be
    given back *)
Fixpoint remove1 (b : Z * Z) (l : list (Z * Z)) : option (list (Z * Z)) :=
  match l with
  | [] => None
  | c :: l => if (fst b =? fst c) && (snd b =? snd c) then Some l
              else match remove1 b l with Some l => Some (c :: l) | None => None end
  end.
Fixpoint outstanding (l : list (Z * Z)) (ev : list event) : option (list (Z * Z)) :=
  match ev with
  | [] => Some l
  | EAlloc a n :: ev => outstanding ((a, n) :: l) ev
  | EFree a n :: ev => match remove1 (a, n) l with Some l => outstanding l ev | None => None end
  end.
(** in bytes *)
Definition in_bytes (a : small) (b : Z * Z) : Z * Z := (fst b, snd b * stsz a).
Definition is_off (a : small) (b : Z * Z) : bool :=
  negb ((sarr a <=? fst b) && (fst b + snd b * stsz a <=? sarr a + scap a * stsz a)).

(** a legal allocation: at least one object, sizes that do not wrap, and a resource whose
    block is new: off the array and off the blocks it has given out and not got back *)
Definition small_ok (a : small) : Prop := 0 < sarr a /\ 0 <= scap a /\ 0 < stsz a /\ scap a < 2 ^ 64.
Definition total (l : list (Z * Z)) : Z := fold_right Z.add 0 (map snd l).
Definition small_legal (a : small) (live : list (Z * Z)) (o : sop) : Prop :=
  match o with
  | SAlloc n got =>
      1 <= n /\ n * stsz a < 2 ^ 64 /\ total live + n < 2 ^ 64 /\ off_array a (got, n) /\
      forall b, In b live -> is_off a b = true -> disjoint_blocks (stsz a) b (got, n)
  | SFree _ => True
  end.
(** last in, first out *)
Definition lifo (o : sop) : Prop := match o with SAlloc _ _ => True | SFree i => i = O end.
Fixpoint small_history (a : small) (st : Z * list (Z * Z)) (os : list sop) : Prop :=
  match os with
  | [] => True
  | o :: os => small_legal a (snd st) o /\
               forall num live e, small_step a st o = Ok (num, live, e) -> small_history a (num, live) os
  end.

(** ** Scopes *)
(** every change of the error settings (of the resource) is inside a scope restoring it *)
Fixpoint err_scoped (p : prog) : bool :=
  match p with
  | PSkip | PThrow | PRes _ => true
  | PFlags _ | PCb _ => false
  | PSeq p q => err_scoped p && err_scoped q
  | PTry p => err_scoped p
  | PScope (SErrCb _ | SErrFlags _ | SErrBoth _ _) _ => true
  | PScope _ p => err_scoped p
  end.
Fixpoint mem_scoped (p : prog) : bool :=
  match p with
  | PSkip | PThrow | PFlags _ | PCb _ => true
  | PRes _ => false
  | PSeq p q => mem_scoped p && mem_scoped q
  | PTry p => mem_scoped p
  | PScope (SMem _ | SCounts _) _ => true
  | PScope (SCountsOf _ _) _ => false
  | PScope _ p => mem_scoped p
  end.
(** the body starts with the settings of the scope *)
Definition body_settings (k : scope) (g : glob) : glob :=
  match k with
  | SErrCb c => Glob (gflags g) c (gres g)
  | SErrFlags f => Glob f (gcb g) (gres g)
  | SErrBoth f c => Glob f c (gres g)
  | SMem r => Glob (gflags g) (gcb g) r
  | SCounts self => Glob (gflags g) (gcb g) self
  | SCountsOf self _ => Glob (gflags g) (gcb g) self
  end.
(** no assertion fails if only resources that exist are set *)
Fixpoint nonnull_prog (p : prog) : Prop :=
  match p with
  | PRes r => r <> 0
  | PSeq p q => nonnull_prog p /\ nonnull_prog q
  | PTry p => nonnull_prog p
  | PScope (SMem r) p => r <> 0 /\ nonnull_prog p
  | PScope (SCounts _ | SCountsOf _ _) _ => False
  | PScope _ p => nonnull_prog p
  | _ => True
  end.
