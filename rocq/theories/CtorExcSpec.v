(** Specification of element types that throw. *)
From Verif Require Import Base CtorModel CtorExcModel.

(** iteration [k] is the first that throws *)
Definition first_throw (th : Z -> bool) (k : Z) : Prop := 0 <= k /\ th k = true /\ forall i, 0 <= i < k -> th i = false.
Definition quiet (th : Z -> bool) (n : Z) : Prop := forall i, 0 <= i < n -> th i = false.
(** what is asked for: the caller sees the exception and everything is as it was *)
Definition undone (r : res outcome) (st : objs) : Prop := r = Ok (Thrown st).
