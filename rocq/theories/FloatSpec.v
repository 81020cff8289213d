(** Specification for the conversion of decimal text to IEEE 754 binary numbers; it does not
    use the model. A format is given by the widths of its fields: [mb] bits of the fraction and
    [eb] bits of the exponent, 52 and 11 for double, 23 and 8 for float. *)
From Verif Require Import Base.
From Coq Require Export QArith Qabs.
Open Scope Z_scope.

(** ** Numbers in the binary format *)
Definition b_words (mb eb : Z) : Z := 2 ^ (1 + eb + mb).
Definition b_neg (mb eb w : Z) : bool := 2 ^ (eb + mb) <=? w.
Definition b_exp (mb eb w : Z) : Z := (w / 2 ^ mb) mod 2 ^ eb.
Definition b_frac (mb w : Z) : Z := w mod 2 ^ mb.
Definition b_finite (mb eb w : Z) : Prop := 0 <= w < b_words mb eb /\ b_exp mb eb w < 2 ^ eb - 1.
Definition b_infinite (mb eb w : Z) : Prop :=
  0 <= w < b_words mb eb /\ b_exp mb eb w = 2 ^ eb - 1 /\ b_frac mb w = 0.
Definition b_nan (mb eb w : Z) : Prop :=
  0 <= w < b_words mb eb /\ b_exp mb eb w = 2 ^ eb - 1 /\ b_frac mb w <> 0.
Definition b_zero (mb eb w : Z) : Prop := 0 <= w < b_words mb eb /\ b_exp mb eb w = 0 /\ b_frac mb w = 0.
Definition b_bias (eb : Z) : Z := 2 ^ (eb - 1) - 1.
Definition signed (neg : bool) (x : Q) : Q := if neg then (- x)%Q else x.
Definition b_value (mb eb w : Z) : Q :=
  let e := b_exp mb eb w in
  signed (b_neg mb eb w)
    (inject_Z (if e =? 0 then b_frac mb w else 2 ^ mb + b_frac mb w) * (2 # 1) ^ (Z.max e 1 - b_bias eb - mb))%Q.

(** ** Correct rounding, to nearest and ties to even, of the number with magnitude [x] and the
    given sign. From half a unit above the largest finite number on, the result is infinite. *)
Definition b_limit (mb eb : Z) : Q := (inject_Z (2 ^ (mb + 2) - 1) * (2 # 1) ^ (b_bias eb - mb - 1))%Q.
Definition nearest (mb eb : Z) (neg : bool) (x : Q) (w : Z) : Prop :=
  b_neg mb eb w = neg /\
  ((b_limit mb eb <= x)%Q -> b_infinite mb eb w) /\
  ((x < b_limit mb eb)%Q -> b_finite mb eb w /\
     forall w', b_finite mb eb w' ->
       (Qabs (signed neg x - b_value mb eb w) <= Qabs (signed neg x - b_value mb eb w'))%Q /\
       ((Qabs (signed neg x - b_value mb eb w) == Qabs (signed neg x - b_value mb eb w'))%Q ->
        ~ (b_value mb eb w == b_value mb eb w')%Q -> Z.even (b_frac mb w) = true)).

(** ** Decimal text: digits, a fraction, an exponent *)
Definition dig (c : Z) : Prop := ch "0" <= c <= ch "9".
Definition digs (s : list Z) : Prop := Forall dig s.
Fixpoint dec_from (a : Z) (s : list Z) : Z :=
  match s with [] => a | c :: s => dec_from (10 * a + (c - ch "0")) s end.
Definition dec (s : list Z) : Z := dec_from 0 s.
Inductive fraction : list Z -> list Z -> Prop :=
| fr_none : fraction [] []
| fr_some : forall d, digs d -> fraction (ch "." :: d) d.
Inductive expo : list Z -> Z -> Prop :=
| ex_none : expo [] 0
| ex_plain : forall c d, c = ch "e" \/ c = ch "E" -> d <> [] -> digs d -> expo (c :: d) (dec d)
| ex_plus : forall c d, c = ch "e" \/ c = ch "E" -> d <> [] -> digs d -> expo (c :: ch "+" :: d) (dec d)
| ex_minus : forall c d, c = ch "e" \/ c = ch "E" -> d <> [] -> digs d -> expo (c :: ch "-" :: d) (- dec d).
(** [s] is the text of the number [m * 10^e] with the sign [neg] *)
Inductive decimal_text : list Z -> bool -> Z -> Z -> Prop :=
| decimal_text_intro : forall (neg : bool) i f d x e, digs i -> fraction f d -> expo x e -> i ++ d <> [] ->
    decimal_text ((if neg then [ch "-"] else []) ++ i ++ f ++ x) neg (dec (i ++ d)) (e - len d).
Definition decimal (m e : Z) : Q := (inject_Z m * (10 # 1) ^ e)%Q.
(** [t] is the longest decimal text at the begin of [t ++ rest] *)
Definition longest (t rest : list Z) : Prop :=
  forall a b neg m e, rest = a ++ b -> decimal_text (t ++ a) neg m e -> a = [].
Definition no_number (s : list Z) : Prop := forall a b neg m e, s = a ++ b -> ~ decimal_text a neg m e.

(** ** Infinity and NaN, in letters of either case *)
Definition letters (s p : list Z) : Prop := Forall2 (fun c l => c = l \/ c = l - 32) s p.
Definition word_char (c : Z) : Prop :=
  ch "a" <= c <= ch "z" \/ ch "A" <= c <= ch "Z" \/ ch "0" <= c <= ch "9" \/ c = ch "_".
(** [s] is the text of an infinity ([nan = false]) or of a NaN ([nan = true]) *)
Inductive special_text : list Z -> bool -> bool -> Prop :=
| sp_inf : forall (neg : bool) s, letters s (s2z "inf") -> special_text ((if neg then [ch "-"] else []) ++ s) neg false
| sp_infinity : forall (neg : bool) s, letters s (s2z "infinity") -> special_text ((if neg then [ch "-"] else []) ++ s) neg false
| sp_nan : forall (neg : bool) s, letters s (s2z "nan") -> special_text ((if neg then [ch "-"] else []) ++ s) neg true
| sp_nan_code : forall (neg : bool) s p, letters s (s2z "nan") -> Forall word_char p ->
    special_text ((if neg then [ch "-"] else []) ++ s ++ [ch "("] ++ p ++ [ch ")"]) neg true.
Definition longest_special (t rest : list Z) : Prop :=
  forall a b neg nan, rest = a ++ b -> special_text (t ++ a) neg nan -> a = [].
Definition no_special (s : list Z) : Prop := forall a b neg nan, s = a ++ b -> ~ special_text a neg nan.
