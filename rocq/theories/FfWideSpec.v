(** Specification of texts in other character types; of the model it uses the type of answers
    only. *)
From Verif Require Import Base FloatSpec CharconvSpec FloatModel.
Open Scope Z_scope.

Definition ascii (c : Z) : Prop := 0 <= c < 128.
(** The text [s'] of bytes has the ASCII characters of [s] in the same places, and a byte above
    them for every other one; [dot] is written [dot']. *)
Definition twin (dot dot' c c' : Z) : Prop :=
  is_byte c' /\ (ascii c \/ ascii c' -> c = c') /\ (c = dot <-> c' = dot').
Definition twins (dot dot' : Z) (s s' : list Z) : Prop := Forall2 (twin dot dot') s s'.
Definition letter (c : Z) : Prop := ch "a" <= c <= ch "z" \/ ch "A" <= c <= ch "Z".
(** no character above 255, or below 0, whose lowest byte is a letter or a digit *)
Definition no_lookalikes (s : list Z) : Prop :=
  Forall (fun c => is_byte c \/ ~ letter (c mod 256) /\ ~ dig (c mod 256)) s.
(** the same answer about [s] and [s']: it points to the same place in both *)
Definition same_answer (s s' : list Z) (a b : res ffres) : Prop :=
  match a, b with
  | Ok x, Ok y => r_ec x = r_ec y /\ r_value x = r_value y /\
      exists k k', s = k ++ r_rest x /\ s' = k' ++ r_rest y /\ length k = length k'
  | Ub, Ub | Err, Err => True
  | _, _ => False
  end.
