(** Model of the remaining members of basic_substring (substr.hpp). *)
From Verif Require Import Base SubstrModel.

(** is_super: 304-310, for views of the same memory ([a], not null, is [*this]) *)
Definition is_super (a w : view) : bool :=
  if 0 <? vl a then (vo a <=? vo w) && (vo w + vl w <=? vo a + vl a) else (vl w =? 0) && (vo w =? vo a).

(** erase(sub): 2078-2083 *)
Definition erase_sub (m : list Z) (v w : view) : res (list Z * view) :=
  assert (is_super v w) (assert (vo v <=? vo w) (erase m v (u64 (vo w - vo v)) (vl w))).

(** the constructors from pointers. An array [C[N]] (140), a pointer and length
    (143: accepted by the assertion unless null with a length), two pointers
    (147), a zero-terminated string (155). [m] is the memory, the pointer the
    offset [p]. strlen reads up to the first zero. *)
Definition from_array (m : list Z) : view := View 0 (u64 (len m - 1)).
Definition from_ptrs (b e : Z) : res view := assert (b <=? e) (Ok (View b (u64 (e - b)))).
Definition from_cstr (m : list Z) (p : Z) : res view :=
  do r <- for_up (Z.to_nat (len m - p)) p (at_ m (fun c => c =? 0)) ;;
  match r with Some e => Ok (View p (u64 (e - p))) | None => Ub end.
