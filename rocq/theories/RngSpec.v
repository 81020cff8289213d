(** Specification of the generators. *)
From Verif Require Import Base.

Definition state64 (s : Z) : Prop := 0 <= s < 2 ^ 64.
(** one to one and onto on the 64-bit states *)
Definition bijection (f : Z -> Z) : Prop :=
  (forall s, state64 s -> state64 (f s)) /\
  (forall s s', state64 s -> state64 s' -> f s = f s' -> s = s') /\
  (forall y, state64 y -> exists s, state64 s /\ f s = y).
(** [n] calls *)
Definition calls (f : Z -> Z) (n : nat) (s : Z) : Z := Nat.iter n f s.
(** every state occurs exactly once before the first repetition *)
Definition full_cycle (f : Z -> Z) (s : Z) : Prop :=
  (forall i j : nat, Z.of_nat i < 2 ^ 64 -> Z.of_nat j < 2 ^ 64 -> calls f i s = calls f j s -> i = j) /\
  (forall n : nat, Z.of_nat n = 2 ^ 64 -> calls f n s = s).
(** rotation of 32 bits to the right *)
Definition rotated (x k y : Z) : Prop :=
  0 <= y < 2 ^ 32 /\ forall i, 0 <= i < 32 -> Z.testbit y i = Z.testbit x ((i + k) mod 32).
