(** Specification of formatted output, independent of the model's conversion functions. *)
From Verif Require Import Base CharconvModel CharconvSpec SpanNumSpec Base64Spec FormatModel.

(** the text of an argument *)
Inductive arg_text : arg -> list Z -> Prop :=
| at_str s : arg_text (AStr s) s
| at_cstr s : arg_text (ACstr s) s
| at_char c : arg_text (AChar c) [c]
| at_bool v : arg_text (ABool v) (s2z (if v then "1" else "0"))
| at_boolalpha v : arg_text (ABoolAlpha v) (s2z (if v then "true" else "false"))
| at_int t v s : in_range t v -> is_int_text false 10 v s -> arg_text (AInt t v) s
| at_radix t v r s : in_range t v -> is_int_text true (base r) v s -> arg_text (ARadix t v r) s
| at_pad t v r nd s : in_range t v -> 0 <= nd <= 2 ^ 32 - 4 -> is_padded_text (base r) v nd s ->
    arg_text (APad t v r nd) s
| at_ptr p s : in_range i64 p -> is_int_text true 16 p s -> arg_text (APtr p) s
| at_base64 d : bytes d -> len d < 2 ^ 63 -> arg_text (ABase64 d) (rfc_encode d)
| at_left a t w pad : arg_text a t -> 0 <= w < 2 ^ 64 ->
    arg_text (ALeft a w pad) (t ++ repeat pad (Z.to_nat (w - len t)))
| at_right a t w pad : arg_text a t -> 0 <= w < 2 ^ 64 ->
    arg_text (ARight a w pad) (repeat pad (Z.to_nat (w - len t)) ++ t).

(** arguments other than the aligned ones *)
Definition simple (a : arg) : Prop :=
  match a with ALeft _ _ _ | ARight _ _ _ => False | _ => True end.

(** a buffer length for which the argument stays inside the buffer. The aligned
    arguments do not when their text is shorter than the buffer and their width is
    beyond it (left), or the padding alone is beyond it (right). *)
Inductive safe_in : Z -> arg -> Prop :=
| si_simple n a : simple a -> safe_in n a
| si_left n a t w p : safe_in n a -> arg_text a t -> n <= len t \/ w <= n -> safe_in n (ALeft a w p)
| si_right n a t w p : safe_in n a -> arg_text a t ->
    n <= len t \/ w <= n \/ w <= n + len t /\ safe_in (n + len t - w) a -> safe_in n (ARight a w p).

(** the separator between consecutive elements *)
Fixpoint intersperse {A} (sep : A) (l : list A) : list A :=
  match l with
  | [] => []
  | [a] => [a]
  | a :: r => a :: sep :: intersperse sep r
  end.

(** [pre] and "{}" and [post]: split at the first placeholder *)
Definition has_placeholder (f : list Z) : Prop := exists a b, f = a ++ s2z "{}" ++ b.
Definition first_placeholder (f pre post : list Z) : Prop :=
  f = pre ++ s2z "{}" ++ post /\ forall a b, f = a ++ s2z "{}" ++ b -> len pre <= len a.

(** [fmt_subst fmt ts out]: [out] is [fmt] with the i-th placeholder replaced by the
    i-th element; surplus placeholders stay, surplus elements are dropped *)
Inductive fmt_subst : list Z -> list (list Z) -> list Z -> Prop :=
| fs_noargs f : fmt_subst f [] f
| fs_nohole f ts : ~ has_placeholder f -> fmt_subst f ts f
| fs_hole f pre post t ts out : first_placeholder f pre post -> fmt_subst post ts out ->
    fmt_subst f (t :: ts) (pre ++ t ++ out).

(** the same, keeping the pieces apart *)
Inductive fmt_pieces : list Z -> list arg -> list arg -> Prop :=
| fp_noargs f : fmt_pieces f [] [AStr f]
| fp_nohole f al : ~ has_placeholder f -> fmt_pieces f al [AStr f]
| fp_hole f pre post a al out : first_placeholder f pre post -> fmt_pieces post al out ->
    fmt_pieces f (a :: al) (AStr pre :: a :: out).

(** a format whose placeholders are each followed by a delimiter or the end *)
Inductive delimited : list Z -> nat -> Prop :=
| dl_zero f : delimited f 0
| dl_hole f pre post n : first_placeholder f pre post -> ended post -> delimited post n -> delimited f (S n).

(** integer arguments, and the variable they are read back into *)
Definition int_arg (a : arg) (t : ity) (v : Z) : Prop :=
  a = AInt t v \/ (exists r, a = ARadix t v r) \/ (exists r nd, a = APad t v r nd).
Definition is_slot (x : slot) (t : ity) : Prop := exists v0, x = SInt t v0.
(** integers with their types: the arguments, the texts, the variables before and after *)
Definition ints (al : list arg) (its : list (ity * Z)) : Prop := Forall2 (fun a it => int_arg a (fst it) (snd it)) al its.
Definition texts (its : list (ity * Z)) (ws : list (list Z)) : Prop :=
  Forall2 (fun it w => in_range (fst it) (snd it) /\ int_text (fst it) w (snd it)) its ws.
Definition vars (xs : list slot) (its : list (ity * Z)) : Prop := Forall2 (fun x it => is_slot x (fst it)) xs its.
Definition values (its : list (ity * Z)) : list slot := map (fun it => SInt (fst it) (snd it)) its.
