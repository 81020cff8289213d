(** Specification for the memory utilities. *)
From Verif Require Import Base.

(** lowest and highest set bit *)
Definition lowest_bit (v n : Z) : Prop := 0 <= n /\ Z.testbit v n = true /\ forall i, 0 <= i < n -> Z.testbit v i = false.
Definition highest_bit (v n : Z) : Prop := 0 <= n /\ Z.testbit v n = true /\ forall i, n < i -> Z.testbit v i = false.
(** exactly the bits from [first] up to [last] of a value of [t] *)
Definition mask_of (t : ity) (first last r : Z) : Prop :=
  in_range t r /\ forall i, 0 <= i < bits (iw t) -> Z.testbit r i = (first <=? i) && (i <? last).
(** [k] copies *)
Definition copies (k : Z) (p : list Z) : list Z := concat (repeat p (Z.to_nat k)).
(** the byte ranges have a common byte *)
Definition share_byte (a sza b szb : Z) : Prop := exists k, a <= k < a + sza /\ b <= k < b + szb.
