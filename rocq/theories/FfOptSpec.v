(** Specification of the formats of numbers fast_float can be told to read; it does not use the
    model. *)
From Verif Require Import Base FloatSpec.
Open Scope Z_scope.

(** an exponent: after e or E if [sci]; if [fortran], after d or D, or a sign alone *)
Inductive mark (sci fortran : bool) : list Z -> list Z -> Prop :=
| mk_e c s : sci = true -> c = ch "e" \/ c = ch "E" -> mark sci fortran [c] s
| mk_d c s : fortran = true -> c = ch "d" \/ c = ch "D" -> mark sci fortran [c] s
| mk_sign s : fortran = true -> s <> [] -> mark sci fortran [] s.
Inductive exp_sign : list Z -> bool -> Prop :=
| sg_none : exp_sign [] false
| sg_plus : exp_sign [ch "+"] false
| sg_minus : exp_sign [ch "-"] true.
Inductive exponent (sci fortran : bool) : list Z -> Z -> Prop :=
| xp_none : exponent sci fortran [] 0
| xp_some m s (neg : bool) d : mark sci fortran m s -> exp_sign s neg -> d <> [] -> digs d ->
    exponent sci fortran (m ++ s ++ d) (if neg then - dec d else dec d).
Definition fraction_text (dot : Z) (d : option (list Z)) : list Z := match d with Some d => dot :: d | None => [] end.
Definition fraction_digits (d : option (list Z)) : list Z := match d with Some d => d | None => [] end.
(** [t] is a number with the digits [i], the fraction [d], the text [x] of an exponent of value [e] *)
Inductive number_text (dot : Z) (sci fortran : bool) : list Z -> bool -> list Z -> option (list Z) -> list Z -> Z -> Prop :=
| number_text_intro (neg : bool) i d x e : digs i -> digs (fraction_digits d) -> exponent sci fortran x e -> i ++ fraction_digits d <> [] ->
    number_text dot sci fortran ((if neg then [ch "-"] else []) ++ i ++ fraction_text dot d ++ x) neg i d x e.
Definition longest_number (dot : Z) (sci fortran : bool) (t rest : list Z) : Prop :=
  forall a b neg i d x e, rest = a ++ b -> number_text dot sci fortran (t ++ a) neg i d x e -> a = [].
Definition no_number_text (dot : Z) (sci fortran : bool) (s : list Z) : Prop :=
  forall a b neg i d x e, s = a ++ b -> ~ number_text dot sci fortran a neg i d x e.
(** JSON wants digits before the point and behind it, and no leading zeros; a format that is
    scientific only wants an exponent *)
Definition admitted (json exponent_only : bool) (i : list Z) (d : option (list Z)) (x : list Z) : Prop :=
  (json = true -> (i = [ch "0"] \/ exists c r, i = c :: r /\ c <> ch "0") /\ d <> Some []) /\
  (exponent_only = true -> x <> []).
(** a decimal point that cannot be taken for anything else *)
Definition point_char (dot : Z) : Prop := ~ dig dot /\ ~ In dot (s2z "+-eEdD").

(** the numbers of RFC 8259, section 6 *)
Inductive json_int : list Z -> Prop :=
| ji_zero : json_int [ch "0"]
| ji_some c r : ch "1" <= c <= ch "9" -> digs r -> json_int (c :: r).
Inductive json_frac : list Z -> Prop :=
| jf_none : json_frac []
| jf_some d : digs d -> d <> [] -> json_frac (ch "." :: d).
Inductive json_exp : list Z -> Prop :=
| jx_none : json_exp []
| jx_some c s d : c = ch "e" \/ c = ch "E" -> s = [] \/ s = [ch "-"] \/ s = [ch "+"] -> digs d -> d <> [] -> json_exp (c :: s ++ d).
Definition json_number (t : list Z) : Prop :=
  exists (neg : bool) i f x, json_int i /\ json_frac f /\ json_exp x /\ t = (if neg then [ch "-"] else []) ++ i ++ f ++ x.
