(** Specification of construction, destruction, make_room and destroy_room. *)
From Verif Require Import Base CtorModel.

(** the cell at an index *)
Definition at_ (m : list cell) (j : Z) : cell := nth (Z.to_nat j) m Raw.
Definition range (lo n j : Z) : bool := (lo <=? j) && (j <? lo + n).
(** [n] objects from [lo] on; [n] cells without an object *)
Definition objects (m : list cell) (lo n : Z) : Prop := forall j, lo <= j < lo + n -> is_object (at_ m j) = true.
Definition raw (m : list cell) (lo n : Z) : Prop := forall j, lo <= j < lo + n -> at_ m j = Raw.
Definition within {A} (m : list A) (lo n : Z) : Prop := 0 <= lo /\ lo + n <= len m.
Definition apart_ranges (a na b nb : Z) : Prop := a + na <= b \/ b + nb <= a.
(** [m'] is [m] changed as the function says *)
Definition changed (m m' : list cell) (f : Z -> cell) : Prop :=
  len m' = len m /\ forall j, 0 <= j < len m -> at_ m' j = f j.
