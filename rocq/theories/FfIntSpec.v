(** Numbers at the start of a text, in a base from 2 to 36. *)
From Verif Require Import Base CharconvSpec.
Open Scope Z_scope.

(** [r] does not continue a number in base [b] *)
Definition ends_digits (b : Z) (r : list Z) : Prop :=
  match r with [] => True | c :: _ => forall x, char_digit c = Some x -> b <= x end.

(** [s] starts with the number [v], as long as possible, and [r] is what follows it. Only for
    a signed type may there be a minus sign. *)
Inductive number_at (t : ity) (b : Z) : list Z -> Z -> list Z -> Prop :=
| na_pos d v r : digit_text b d v -> ends_digits b r -> number_at t b (d ++ r) v r
| na_neg d v r : isgn t = true -> digit_text b d v -> ends_digits b r -> number_at t b (ch "-" :: d ++ r) (- v) r.
