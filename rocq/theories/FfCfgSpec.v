(** Specification for C130; it does not use the model. *)
From Verif Require Import Base.
Open Scope Z_scope.

(** the characters of std::isspace in the "C" locale *)
Definition space (c : Z) : Prop := c = 32 \/ 9 <= c <= 13.
Definition no_space_first (s : list Z) : Prop := match s with c :: _ => ~ space c | [] => True end.
Definition starts_with (c : Z) (s : list Z) : Prop := exists r, s = c :: r.
(** the value of bytes, the lowest first *)
Fixpoint little_endian (l : list Z) : Z := match l with c :: r => c + 256 * little_endian r | [] => 0 end.
