(** Specification of number literals embedded in text, and of bool, char and
    string conversion, independent of the model. *)
From Verif Require Import Base CharconvSpec.

Definition blank (c : Z) : Prop := In c [32; 10; 13; 9].
(** what may follow a number: blank, closing bracket, comma, semicolon, NUL *)
Definition delim (c : Z) : Prop := In c (s2z " ])},;" ++ [10; 13; 9; 0]).
(** the rest of the text after a number *)
Definition ended (r : list Z) : Prop := r = [] \/ exists c r', r = c :: r' /\ delim c.

(** nonempty sequence of base-[b] digits *)
Definition digit_of (b c : Z) : Prop := exists d, char_digit c = Some d /\ d < b.
Definition sign_opt (minus : bool) (l : list Z) : Prop :=
  l = [] \/ l = s2z "+" \/ minus = true /\ l = s2z "-".

(** integer literals *)
Definition int_literal (minus : bool) (w : list Z) : Prop :=
  exists sg u v, w = sg ++ u /\ sign_opt minus sg /\ unsigned_text u v.

(** digits with an optional point; at least one digit *)
Inductive mantissa (b : Z) : list Z -> Prop :=
| man_int d : d <> [] -> Forall (digit_of b) d -> mantissa b d
| man_frac d f : d ++ f <> [] -> Forall (digit_of b) d -> Forall (digit_of b) f ->
                 mantissa b (d ++ ch "." :: f).
(** optional exponent: a letter, a sign (optional if [optsign]), decimal digits *)
Inductive exponent (letters : list Z) (optsign : bool) : list Z -> Prop :=
| exp_none : exponent letters optsign []
| exp_some e sg d : In e letters ->
    sg = s2z "+" \/ sg = s2z "-" \/ optsign = true /\ sg = [] ->
    d <> [] -> Forall (digit_of 10) d -> exponent letters optsign (e :: sg ++ d).
Inductive real_body : list Z -> Prop :=
| rb_dec m x : mantissa 10 m -> exponent (s2z "eE") true x -> real_body (m ++ x)
| rb_hex p m x : In p (s2z "xX") -> mantissa 16 m -> exponent (s2z "pP") false x -> real_body (ch "0" :: p :: m ++ x)
| rb_bin p m x : In p (s2z "bB") -> mantissa 2 m -> exponent (s2z "pP") false x -> real_body (ch "0" :: p :: m ++ x)
| rb_oct p m x : In p (s2z "oO") -> mantissa 8 m -> exponent (s2z "pP") false x -> real_body (ch "0" :: p :: m ++ x)
| rb_inf : real_body (s2z "inf")
| rb_infinity : real_body (s2z "infinity")
| rb_nan : real_body (s2z "nan").
Definition real_literal (w : list Z) : Prop :=
  exists sg u, w = sg ++ u /\ sign_opt true sg /\ real_body u.

(** [v] is the first literal of the kind [L] in [s]: after leading blanks only,
    and followed by the end or a delimiter; empty when there is none *)
Definition first_literal (L : list Z -> Prop) (s : list Z) (v : view) : Prop :=
  vin v s /\
  (forall a w b, s = a ++ w ++ b -> Forall blank a -> ended b -> L w -> v = View (len a) (len w)) /\
  (vl v <> 0 -> exists a b, s = a ++ contents s v ++ b /\ Forall blank a /\ ended b /\ L (contents s v)).

(** the texts of a bool *)
Inductive bool_text : list Z -> bool -> Prop :=
| bt_word w b : In (w, b) [(s2z "false", false); (s2z "true", true); (s2z "False", false);
                           (s2z "True", true); (s2z "FALSE", false); (s2z "TRUE", true)] -> bool_text w b
| bt_int w v : signed_text w v -> in_range i32 v -> bool_text w (negb (v =? 0)).

(** the first word: the maximal blank-free run after the leading blanks *)
Definition first_word (s : list Z) (v : view) : Prop :=
  exists a w b, s = a ++ w ++ b /\ Forall blank a /\ Forall (fun c => ~ blank c) w /\
    (b = [] \/ exists c b', b = c :: b' /\ blank c) /\
    (w = [] -> b = []) /\ (w = [] -> vl v = 0) /\ (w <> [] -> v = View (len a) (len w)).
