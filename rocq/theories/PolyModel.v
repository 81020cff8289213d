(** src/c4/gcc-4.8.hpp, which adds what the library of GCC 4.8 does not have, and the choice
    between value and reference in src/c4/types.hpp. *)
From Verif Require Import Base.
Open Scope Z_scope.

(** std::align: gcc-4.8.hpp 41-55. The pointer and the space afterwards, and the result *)
Definition align48 (align size ptr space : Z) : Z * Z * option Z :=
  if space <? size then (ptr, space, None)
  else
    let aligned := Z.land (u64 (u64 (ptr - 1) + align)) (u64 (- align)) in
    let diff := u64 (aligned - ptr) in
    if u64 (space - size) <? diff then (ptr, space, None)
    else (aligned, u64 (space - diff), Some aligned).

(** A class, by its special member functions. *)
Inductive member := Trivial | Nontrivial | Deleted.
Record cls := Cls { c_ctor : member; c_copy : member; c_move : member; c_copy_assign : member; c_move_assign : member; c_dtor : member }.
(** The built-in traits of GCC: a member that is deleted is trivial for them. is_destructible *)
Definition has_trivial (m : member) : bool := match m with Nontrivial => false | _ => true end.
Definition is_destructible (c : cls) : bool := match c_dtor c with Deleted => false | _ => true end.
(** gcc-4.8.hpp 16-20, 22-29, 31-39 *)
Definition is_trivially_copyable48 (c : cls) : bool :=
  is_destructible c && has_trivial (c_dtor c) && (has_trivial (c_ctor c) || has_trivial (c_copy c) || has_trivial (c_copy_assign c)).
Definition is_trivially_copy_constructible48 (c : cls) : bool := has_trivial (c_copy c).
Definition is_trivially_default_constructible48 (c : cls) : bool := has_trivial (c_ctor c).
Definition is_trivially_copy_assignable48 (c : cls) : bool := has_trivial (c_copy_assign c).
Definition is_trivially_move_constructible48 (c : cls) : bool := false.
Definition is_trivially_move_assignable48 (c : cls) : bool := false.

(** A type: a scalar, or a class with its size and whether its layout is standard. *)
Inductive type := Scalar (size : Z) | Class (size : Z) (standard : bool) (c : cls).
(** the traits of the standard library for classes: C++ [class.prop] *)
Definition is_trivially_copyable (c : cls) : bool :=
  has_trivial (c_copy c) && has_trivial (c_move c) && has_trivial (c_copy_assign c) && has_trivial (c_move_assign c) &&
  match c_dtor c with Trivial => true | _ => false end.
Definition is_trivial (c : cls) : bool := is_trivially_copyable c && match c_ctor c with Trivial => true | _ => false end.
(** cref_uses_val: types.hpp 84-99. [cpp20] is C4_CPP >= 20, sizeof(size_t) is 8 *)
Definition cref_uses_val (cpp20 : bool) (t : type) : bool :=
  match t with
  | Scalar _ => true
  | Class n std c => (if cpp20 then is_trivially_copyable c && std else is_trivial c && std) && (n <=? 8)
  end.
(** fastcref: 111-112. How an argument of a function with a parameter of type fastcref<T> is
    passed; an lvalue is copied, which does not compile ([Err]) without a copy constructor *)
Inductive passing := ByRef | ByValue.
Definition pass (cpp20 : bool) (t : type) : res passing :=
  if cref_uses_val cpp20 t then
    match t with Class _ _ c => match c_copy c with Deleted => Err | _ => Ok ByValue end | Scalar _ => Ok ByValue end
  else Ok ByRef.
