(** Model of tight_pair (memory_util.hpp 626-772): a pair that derives from the
    types that are empty classes. The offsets and sizes are computed by the
    layout rules of the Itanium C++ ABI (2.4) for classes without virtual
    functions; POD classes have a data size equal to their size. *)
From Verif Require Import Base.

(** A type. [tid] tells types apart. [tnv] is the size without tail padding.
    [tsubs] are the subobjects of empty class type as (offset, type), the object
    itself included when it is of an empty class. [tbases] are the base classes.
    [tctor] is what the default constructor writes, [None] if it is trivial. *)
Record ty := Ty { tid : Z; tsize : Z; tnv : Z; talign : Z; tempty : bool; tclass : bool; tfinal : bool;
  tsubs : list (Z * Z); tbases : list Z; tctor : option (list Z) }.

(** ** Layout of a class *)
Record cls := Cls { csize : Z; cdsize : Z; calign : Z; cplaced : list (Z * Z) }.
Definition new_class : cls := Cls 0 0 1 [].
Definition up (n a : Z) : Z := (n + a - 1) / a * a.
Definition shift (o : Z) (l : list (Z * Z)) : list (Z * Z) := map (fun '(q, t) => (o + q, t)) l.
(** two subobjects of one empty class at one offset *)
Definition conflict (placed l : list (Z * Z)) : bool :=
  existsb (fun '(p, t) => existsb (fun '(q, u) => (p =? q) && (t =? u)) placed) l.
Fixpoint seek (fuel : nat) (placed subs : list (Z * Z)) (o step : Z) : res Z :=
  match fuel with
  | O => Err
  | S f => if conflict placed (shift o subs) then seek f placed subs (o + step) step else Ok o
  end.
Definition max_offset (l : list (Z * Z)) : Z := fold_right (fun p m => Z.max (fst p) m) 0 l.
Definition find_offset (c : cls) (d : ty) (o : Z) : res Z :=
  seek (Z.to_nat (max_offset (cplaced c)) + 2) (cplaced c) (tsubs d) o (talign d).
(** an empty base goes to offset 0 if it can and does not add to the data *)
Definition add_base (c : cls) (d : ty) : res (cls * Z) :=
  if tempty d then
    do o <- (if conflict (cplaced c) (tsubs d) then find_offset c d (up (cdsize c) (talign d)) else Ok 0) ;;
    Ok (Cls (Z.max (csize c) (o + tsize d)) (cdsize c) (Z.max (calign c) (talign d)) (shift o (tsubs d) ++ cplaced c), o)
  else
    do o <- find_offset c d (up (cdsize c) (talign d)) ;;
    Ok (Cls (Z.max (csize c) (o + tnv d)) (o + tnv d) (Z.max (calign c) (talign d)) (shift o (tsubs d) ++ cplaced c), o).
Definition add_member (c : cls) (d : ty) : res (cls * Z) :=
  do o <- find_offset c d (up (cdsize c) (talign d)) ;;
  Ok (Cls (Z.max (csize c) (o + tsize d)) (o + tsize d) (Z.max (calign c) (talign d)) (shift o (tsubs d) ++ cplaced c), o).
Definition finish (c : cls) : Z := up (Z.max 1 (csize c)) (calign c).

(** ** tpc_which_case, 633-662 *)
Inductive tpc := Same | SameEmpty | BothEmpty | FirstEmpty | SecondEmpty | General.
Definition which_case (f s : ty) : tpc :=
  if tid f =? tid s then (if tempty f then SameEmpty else Same)
  else if tempty f && tempty s then BothEmpty
  else if tempty f then FirstEmpty
  else if tempty s then SecondEmpty
  else General.

(** a class can only derive from a class that is not final; with two bases the
    conversion to one that is also a base of the other is ambiguous *)
Definition can_derive (d : ty) : bool := tclass d && negb (tfinal d).
Definition well_formed (f s : ty) : bool :=
  match which_case f s with
  | General => true
  | Same | SameEmpty | FirstEmpty => can_derive f
  | SecondEmpty => can_derive s
  | BothEmpty => can_derive f && can_derive s
      && negb (existsb (Z.eqb (tid s)) (tbases f)) && negb (existsb (Z.eqb (tid f)) (tbases s))
  end.

(** size and the offsets of first() and second(), 664-767; [Err] is a program
    that does not compile *)
Definition tight_layout (f s : ty) : res (Z * Z * Z) :=
  if negb (well_formed f s) then Err else
  match which_case f s with
  | General =>
      do '(c, o1) <- add_member new_class f ;; do '(c, o2) <- add_member c s ;; Ok (finish c, o1, o2)
  | SameEmpty => (* second() is a reinterpret_cast of the object *)
      do '(c, o1) <- add_base new_class f ;; Ok (finish c, o1, 0)
  | BothEmpty =>
      do '(c, o1) <- add_base new_class f ;; do '(c, o2) <- add_base c s ;; Ok (finish c, o1, o2)
  | Same | FirstEmpty =>
      do '(c, o1) <- add_base new_class f ;; do '(c, o2) <- add_member c s ;; Ok (finish c, o1, o2)
  | SecondEmpty =>
      do '(c, o2) <- add_base new_class s ;; do '(c, o1) <- add_member c f ;; Ok (finish c, o1, o2)
  end.

(** ** Construction and access. The object is the memory [m]; the value of a
    type is the bytes of its members. *)
Definition vbytes (d : ty) : Z := if tempty d then 0 else tnv d.
Definition first_ (f s : ty) (m : list Z) : res (list Z) :=
  do '(_, o1, _) <- tight_layout f s ;; rds m o1 (vbytes f).
Definition second_ (f s : ty) (m : list Z) : res (list Z) :=
  do '(_, _, o2) <- tight_layout f s ;; rds m o2 (vbytes s).
Definition set_first (f s : ty) (m v : list Z) : res (list Z) :=
  do '(_, o1, _) <- tight_layout f s ;; wrs m o1 v.
Definition set_second (f s : ty) (m v : list Z) : res (list Z) :=
  do '(_, _, o2) <- tight_layout f s ;; wrs m o2 v.
(** tight_pair(First const&, Second const&); bases before members *)
Definition pair_ctor (f s : ty) (m a b : list Z) : res (list Z) :=
  match which_case f s with
  | SameEmpty => set_first f s m a
  | SecondEmpty => do m <- set_second f s m b ;; set_first f s m a
  | _ => do m <- set_first f s m a ;; set_second f s m b
  end.
(** [m_x()] and [Base()]: value-initialisation; a member that is not mentioned
    is default-initialised, which does nothing if the constructor is trivial *)
Definition value_init (d : ty) : list Z := match tctor d with Some v => v | None => repeat 0 (Z.to_nat (vbytes d)) end.
Definition pair_default (f s : ty) (m : list Z) : res (list Z) :=
  match which_case f s with
  | SameEmpty => set_first f s m (value_init f)
  | SecondEmpty => do m <- set_second f s m (value_init s) ;; set_first f s m (value_init f)
  | Same => (* 726: [tight_pair() : First() {}] *)
      do m <- set_first f s m (value_init f) ;;
      match tctor s with Some v => set_second f s m v | None => Ok m end
  | _ => do m <- set_first f s m (value_init f) ;; set_second f s m (value_init s)
  end.
