(** Specification of integer/text conversion, independent of the model:
    positional notation, canonical numerals, numeral grammar. *)
From Verif Require Import Base.

(** value of a digit sequence, most significant digit first *)
Definition positional (b : Z) (ds : list Z) : Z := fold_left (fun a d => a * b + d) ds 0.

(** the digit characters used when writing: 0-9 then a-f *)
Definition digit_char (d : Z) : Z := if d <? 10 then 48 + d else 97 + (d - 10).

(** the digit denoted by a character when reading: 0-9, a-z, A-Z *)
Definition char_digit (c : Z) : option Z :=
  if (48 <=? c) && (c <=? 57) then Some (c - 48)
  else if (97 <=? c) && (c <=? 122) then Some (c - 97 + 10)
  else if (65 <=? c) && (c <=? 90) then Some (c - 65 + 10)
  else None.

(** [canonical b v ds]: [ds] are the digits of [v] in base [b], without leading
    zeros (and "0" for zero) *)
Record canonical (b v : Z) (ds : list Z) : Prop := {
  can_nonempty : ds <> [];
  can_digits : Forall (fun d => 0 <= d < b) ds;
  can_lead : forall t, ds = 0 :: t -> t = [];
  can_value : positional b ds = v }.

(** [is_numeral b v s]: [s] is the text of [v] in base [b], lower case, no
    leading zeros *)
Definition is_numeral (b v : Z) (s : list Z) : Prop :=
  exists ds, canonical b v ds /\ s = map digit_char ds.

(** number of digits of v in base b, described by the powers of b around v *)
Definition digit_count (b v n : Z) : Prop :=
  1 <= n /\ v < b ^ n /\ (v = 0 -> n = 1) /\ (0 < v -> b ^ (n - 1) <= v).

(** the radix prefix written before a number *)
Definition prefix_of (b : Z) : list Z :=
  if b =? 16 then s2z "0x" else if b =? 8 then s2z "0o" else if b =? 2 then s2z "0b" else [].

Definition sign_of (v : Z) : list Z := if v <? 0 then s2z "-" else [].

(** text of a signed number: sign, prefix, digits *)
Definition is_int_text (pfx : bool) (b v : Z) (s : list Z) : Prop :=
  exists n, is_numeral b (Z.abs v) n /\
            s = sign_of v ++ (if pfx then prefix_of b else []) ++ n.

(** the same with the digits padded with zeros on the left to [nd] digits *)
Definition is_padded_text (b v nd : Z) (s : list Z) : Prop :=
  exists n, is_numeral b (Z.abs v) n /\
            s = sign_of v ++ prefix_of b ++ repeat 48 (Z.to_nat (nd - len n)) ++ n.

(** ** Reading *)

(** [s] is a nonempty sequence of base-[b] digit characters with value [v] *)
Definition digit_text (b : Z) (s : list Z) (v : Z) : Prop :=
  s <> [] /\ exists ds,
    Forall2 (fun c d => char_digit c = Some d /\ d < b) s ds /\ positional b ds = v.

(** unsigned number syntax: decimal, or 0x/0X, 0o/0O, 0b/0B followed by digits *)
Inductive unsigned_text : list Z -> Z -> Prop :=
| ut_dec s v : digit_text 10 s v -> unsigned_text s v
| ut_hex p s v : p = ch "x" \/ p = ch "X" -> digit_text 16 s v -> unsigned_text (ch "0" :: p :: s) v
| ut_oct p s v : p = ch "o" \/ p = ch "O" -> digit_text 8 s v -> unsigned_text (ch "0" :: p :: s) v
| ut_bin p s v : p = ch "b" \/ p = ch "B" -> digit_text 2 s v -> unsigned_text (ch "0" :: p :: s) v.

(** signed number syntax: optional '-' *)
Inductive signed_text : list Z -> Z -> Prop :=
| st_pos s v : unsigned_text s v -> signed_text s v
| st_neg s v : unsigned_text s v -> signed_text (ch "-" :: s) (- v).

(** the texts a type accepts, with their mathematical value *)
Definition int_text (t : ity) : list Z -> Z -> Prop :=
  if isgn t then signed_text else unsigned_text.

(** ** Memory effects *)

(** [m'] differs from [m] at most inside the view [b] *)
Definition same_outside (m m' : list Z) (b : view) : Prop :=
  len m' = len m /\
  forall k, 0 <= k -> k < vo b \/ vo b + vl b <= k ->
            nth (Z.to_nat k) m' 0 = nth (Z.to_nat k) m 0.
