(** Specification of substring operations, independent of the model. *)
From Verif Require Import Base.

(** ** Order *)
(** strict lexicographic order from an order on the elements; a proper prefix is
    smaller *)
Inductive lex (lt : Z -> Z -> Prop) : list Z -> list Z -> Prop :=
| lex_nil c t : lex lt [] (c :: t)
| lex_hd a b s t : lt a b -> lex lt (a :: s) (b :: t)
| lex_tl a s t : lex lt s t -> lex lt (a :: s) (a :: t).
(** the order of char on a platform where it is signed *)
Definition schar_lt (a b : Z) : Prop := schar a < schar b.
(** the order of bytes (memcmp, std::string) *)
Definition byte_lt (a b : Z) : Prop := a < b.

(** ** Positions *)
(** [o] is the smallest index in [lo,hi) satisfying [P], or none *)
Definition is_first (P : Z -> Prop) (lo hi : Z) (o : option Z) : Prop :=
  match o with
  | Some i => lo <= i < hi /\ P i /\ forall j, lo <= j < i -> ~ P j
  | None => forall j, lo <= j < hi -> ~ P j
  end.
(** [o] is the largest index in [0,hi) satisfying [P], or none *)
Definition is_last (P : Z -> Prop) (hi : Z) (o : option Z) : Prop :=
  match o with
  | Some i => 0 <= i < hi /\ P i /\ forall j, i < j < hi -> ~ P j
  | None => forall j, 0 <= j < hi -> ~ P j
  end.
(** the byte at [i] *)
Definition byte_at (s : list Z) (i : Z) : Z := nth (Z.to_nat i) s 0.
(** [pat] occurs in [s] at index [i] *)
Definition occurs (s pat : list Z) (i : Z) : Prop :=
  exists a b, s = a ++ pat ++ b /\ len a = i.

(** number of non-overlapping occurrences found left to right *)
Inductive occurrences (pat : list Z) : list Z -> Z -> Prop :=
| occ_nil : occurrences pat [] 0
| occ_hit r n : occurrences pat r n -> occurrences pat (pat ++ r) (n + 1)
| occ_miss c r n : (forall x, c :: r <> pat ++ x) -> occurrences pat r n ->
                   occurrences pat (c :: r) n.

(** replacing left to right every non-overlapping occurrence *)
Inductive replaced (pat repl : list Z) : list Z -> list Z -> Prop :=
| rep_nil : replaced pat repl [] []
| rep_hit r o : replaced pat repl r o -> replaced pat repl (pat ++ r) (repl ++ o)
| rep_miss c r o : (forall x, c :: r <> pat ++ x) -> replaced pat repl r o ->
                   replaced pat repl (c :: r) (c :: o).

(** ** Trimming *)
Definition no_lead (P : Z -> Prop) (s : list Z) : Prop := forall c t, s = c :: t -> ~ P c.
Definition no_trail (P : Z -> Prop) (s : list Z) : Prop := forall c t, s = t ++ [c] -> ~ P c.
(** [v] delimits in [s] what remains after removing from the left (right) the
    characters of the class; an all-class string leaves an empty view *)
Definition trimmed_left (P : Z -> Prop) (s r : list Z) : Prop :=
  exists a, s = a ++ r /\ Forall P a /\ no_lead P r.
Definition trimmed_right (P : Z -> Prop) (s r : list Z) : Prop :=
  exists b, s = r ++ b /\ Forall P b /\ no_trail P r.
Definition trimmed (P : Z -> Prop) (s r : list Z) : Prop :=
  exists a b, s = a ++ r ++ b /\ Forall P a /\ Forall P b /\ no_lead P r /\ no_trail P r.

(** ** Splitting *)
Fixpoint join (sep : list Z) (l : list (list Z)) : list Z :=
  match l with
  | [] => []
  | [x] => x
  | x :: r => x ++ sep ++ join sep r
  end.

(** ** Brackets *)
Fixpoint balance (o c : Z) (s : list Z) : Z :=
  match s with
  | [] => 0
  | x :: r => (if x =? o then 1 else if x =? c then -1 else 0) + balance o c r
  end.

(** [m] is the inside of a bracketed range: no prefix closes more than it opens,
    and everything opened is closed *)
Definition closes (o c : Z) (m : list Z) : Prop :=
  balance o c m = 0 /\ forall m1 m2, m = m1 ++ m2 -> 0 <= balance o c m1.

(** the inside of a quoted string: ordinary characters, and escape pairs *)
Inductive quoted (q esc : Z) : list Z -> Prop :=
| q_nil : quoted q esc []
| q_chr c r : c <> q -> c <> esc -> quoted q esc r -> quoted q esc (c :: r)
| q_esc c r : quoted q esc r -> quoted q esc (esc :: c :: r).
Definition ends_in (c : Z) (s : list Z) : Prop := exists r, s = r ++ [c].

(** ** Edits *)
Definition upper (c : Z) : Z := if (97 <=? c) && (c <=? 122) then c - 32 else c.
Definition lower (c : Z) : Z := if (65 <=? c) && (c <=? 90) then c + 32 else c.

(** a size no object exceeds (PTRDIFF_MAX) *)
Definition small (s : list Z) : Prop := len s < 2 ^ 63.

(** the text of a view, empty for the null view *)
Definition ocontents (s : list Z) (o : option view) : list Z := match o with Some v => contents s v | None => [] end.

(** [l] is empty or ends with the separator [c] *)
Definition ends_sep (c : Z) (l : list Z) : Prop := l = [] \/ ends_in c l.

(** [l] is empty or begins with the separator [c] *)
Definition begins_sep (c : Z) (l : list Z) : Prop := l = [] \/ exists r, l = c :: r.
