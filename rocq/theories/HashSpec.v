(** Specification of FNV-1a. *)
From Verif Require Import Base.

(** hash = offset basis; for each byte: hash = hash xor byte, hash = hash * prime mod 2^w *)
Definition fnv1a (w basis prime : Z) (s : list Z) : Z :=
  fold_left (fun h b => (Z.lxor h b * prime) mod 2 ^ w) s basis.
Definition bytes (s : list Z) : Prop := Forall (fun b => 0 <= b < 256) s.
