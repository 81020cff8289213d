(** Specification for type names, sizes, sequences and macros; it does not use the model. *)
From Verif Require Import Base.

(** Visual Studio puts the kind of a class before its name *)
Definition kinds : list (list Z) := [s2z "class "; s2z "struct "].
Definition no_kind (s : list Z) : Prop := forall k r, In k kinds -> s <> k ++ r.

(** 0, 1, ..., n - 1 *)
Definition counts (n : Z) (s : list Z) : Prop := len s = n /\ forall i, 0 <= i < n -> nth (Z.to_nat i) s 0 = i.

(** a before b, as versions *)
Definition older (a b : Z * Z * Z) : Prop :=
  let '(a1, a2, a3) := a in let '(b1, b2, b3) := b in
  a1 < b1 \/ a1 = b1 /\ (a2 < b2 \/ a2 = b2 /\ a3 < b3).

(** member typedefs of a type: the name, and whether it is a reference type *)
Definition has_member (members : list (list Z * bool)) (name : list Z) : Prop := exists ref, In (name, ref) members.
