(** Specification for real numbers and their text, besides that of FloatSpec and SpanNumSpec;
    it does not use the model. *)
From Verif Require Import Base CharconvSpec SpanNumSpec FloatSpec.
Open Scope Z_scope.

(** ** Hexadecimal floating point text as of C and C++: the exponent is a power of two *)
Definition hexdigs (s ds : list Z) : Prop := Forall2 (fun c d => char_digit c = Some d /\ d < 16) s ds.
Inductive hex_fraction : list Z -> list Z -> Prop :=
| hf_none : hex_fraction [] []
| hf_some : forall g ds, hexdigs g ds -> hex_fraction (ch "." :: g) ds.
Inductive hex_expo : list Z -> Z -> Prop :=
| hx_none : hex_expo [] 0
| hx_plain : forall p d, In p (s2z "pP") -> d <> [] -> digs d -> hex_expo (p :: d) (dec d)
| hx_plus : forall p d, In p (s2z "pP") -> d <> [] -> digs d -> hex_expo (p :: ch "+" :: d) (dec d)
| hx_minus : forall p d, In p (s2z "pP") -> d <> [] -> digs d -> hex_expo (p :: ch "-" :: d) (- dec d).
(** [s] is the text of the number [m * 2^e] with the sign [neg] *)
Inductive hex_text : list Z -> bool -> Z -> Z -> Prop :=
| hex_text_intro : forall sg (neg : bool) p i f x di df e,
    (if neg then sg = s2z "-" else sg = [] \/ sg = s2z "+") -> In p (s2z "xX") ->
    hexdigs i di -> hex_fraction f df -> hex_expo x e -> di ++ df <> [] ->
    hex_text (sg ++ ch "0" :: p :: i ++ f ++ x) neg (positional 16 (di ++ df)) (e - 4 * len df).
Definition hex_value (m e : Z) : Q := (inject_Z m * (2 # 1) ^ e)%Q.
(** a text without the letters a to f and p *)
Definition plain (s : list Z) : Prop := Forall (fun c => In c (s2z "+-.0123456789xX")) s.

(** ** Conversion of a number to text. A function that writes the text of a number to a buffer:
    if the result is not larger than the buffer, the text is there and the result is its length;
    it is so if the buffer is larger than the text by [slack]. Nothing outside is written. *)
Definition writes (conv : list Z -> view -> res (list Z * Z)) (t : list Z) (slack : Z) : Prop :=
  forall m b, vin b m -> vl b < 2 ^ 63 ->
  exists m' n, conv m b = Ok (m', n) /\ same_outside m m' b /\ 0 <= n <= Z.max (vl b + 1) (len t + 17) /\
    (n <= vl b -> n = len t /\ slice m' (vo b) n = t) /\ (len t + slack <= vl b -> n <= vl b).

(** the same for a function that writes several texts; the result is not larger than the buffer by more than [k] *)
Definition puts (W : list Z -> view -> res (list Z * Z)) (out : list Z) (k : Z) : Prop :=
  forall m b, vin b m -> vl b < 2 ^ 63 ->
  exists m' n, W m b = Ok (m', n) /\ same_outside m m' b /\ 0 <= n <= vl b + k /\
    (n <= vl b -> n = len out /\ slice m' (vo b) n = out) /\ (len out + 1 <= vl b -> n <= vl b).

(** the conversion specifications of printf for a number: "%", a precision, a length, a letter *)
Inductive printf_real : list Z -> Prop :=
| pf_intro : forall p lm c, (p = [] \/ exists d, digs d /\ p = ch "." :: d) -> In lm [s2z ""; s2z "l"] -> In c (s2z "feag") ->
    printf_real (ch "%" :: p ++ lm ++ [c]).
