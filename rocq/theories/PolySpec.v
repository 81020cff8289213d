(** std::align and the classes whose objects may be copied byte by byte, by the C++ standard. *)
From Verif Require Import Base PolyModel.
Open Scope Z_scope.

(** [ptr.align]: the first address at which [size] bytes fit; the space left from there *)
Definition room (align size ptr space q : Z) : Prop := ptr <= q /\ q + size <= ptr + space /\ (align | q).
Definition aligned_at (align size ptr space : Z) (r : Z * Z * option Z) : Prop :=
  (exists q, room align size ptr space q /\ (forall q', room align size ptr space q' -> q <= q') /\ r = (q, space - (q - ptr), Some q)) \/
  ((forall q, ~ room align size ptr space q) /\ r = (ptr, space, None)).
(** [class.prop]: no copy or move does anything but copy the bytes, nor does the destructor do
    anything *)
Definition bytewise (c : cls) : Prop :=
  c_copy c <> Nontrivial /\ c_move c <> Nontrivial /\ c_copy_assign c <> Nontrivial /\ c_move_assign c <> Nontrivial /\ c_dtor c = Trivial.
