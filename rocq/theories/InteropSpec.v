(** Specification for the interoperation with std containers and for reading back
    concatenated arguments. *)
From Verif Require Import Base CharconvSpec SpanNumSpec FormatModel FormatSpec.

(** arguments that can be told apart when written one after the other, the variables
    they are read into and the variables afterwards: characters, and integers that
    are followed by a delimiter character or by nothing *)
Inductive readable : list arg -> list slot -> list slot -> Prop :=
| rd_nil : readable [] [] []
| rd_char c c0 al xs ys : is_byte c -> readable al xs ys ->
    readable (AChar c :: al) (SChar c0 :: xs) (SChar c :: ys)
| rd_int a t v v0 al xs ys : int_arg a t v ->
    al = [] \/ (exists c al', al = AChar c :: al' /\ delim c) -> readable al xs ys ->
    readable (a :: al) (SInt t v0 :: xs) (SInt t v :: ys).

(** [k] is the least number of units of size [w] that hold [n] bytes *)
Definition least_units (w n k : Z) : Prop := n <= k * w /\ forall k', 0 <= k' -> n <= k' * w -> k <= k'.

(** the call is defined and its result tells whether [P] *)
Definition ok_iff (r : res bool) (P : Prop) : Prop := exists b, r = Ok b /\ (b = true <-> P).
